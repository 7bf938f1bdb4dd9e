(** Runs of the protocol of Groth16Limbs.v with operations that panic more often give the same answers when they do not
    panic; with exact operations they are the runs of Groth16Points.v. *)
From Coq Require Import ZArith List Bool Lia Field.
From Verif Require Import LimbModel FieldModel FieldSpec Algebra PolyModel R1csModel Groth16Model WeierModel MsmModel WeierSqModel WeierSqProofs Groth16Points Groth16Limbs.
Import ListNotations.

(** [x] is a panic or [y]. *)
Definition le_opt {A} (x y : option A) : Prop := x = None \/ x = y.
Definition le_out {A} (x y : outcome A) : Prop := x = Panicked \/ x = y.
Lemma lo_refl {A} (x : option A) : le_opt x x. Proof. right. reflexivity. Qed.
Lemma lu_refl {A} (x : outcome A) : le_out x x. Proof. right. reflexivity. Qed.
Lemma lo_bind {A B} (x y : option A) (f g : A -> option B) : le_opt x y -> (forall a, le_opt (f a) (g a)) -> le_opt (obnd x f) (obnd y g).
Proof. intros [->| ->] H; [left; reflexivity|]. destruct y; [apply H|left; reflexivity]. Qed.
Lemma lu_bind {A B} (x y : option A) (f g : A -> outcome B) : le_opt x y -> (forall a, le_out (f a) (g a)) -> le_out (obind x f) (obind y g).
Proof. intros [->| ->] H; [left; reflexivity|]. destruct y; [apply H|left; reflexivity]. Qed.
Lemma lo_if {A} (b : bool) (x y x' y' : option A) : le_opt x x' -> le_opt y y' -> le_opt (if b then x else y) (if b then x' else y').
Proof. destruct b; auto. Qed.
Lemma lu_if {A} (b : bool) (x y x' y' : outcome A) : le_out x x' -> le_out y y' -> le_out (if b then x else y) (if b then x' else y').
Proof. destruct b; auto. Qed.
Lemma lo_map {A B} (f g : A -> option B) l : (forall a, le_opt (f a) (g a)) -> le_opt (map_opt f l) (map_opt g l).
Proof.
  intros H. induction l as [|a l IH]; [apply lo_refl|]. cbn [map_opt]. destruct (H a) as [->| ->]; [left; reflexivity|].
  destruct (g a); [|left; reflexivity]. destruct IH as [->| ->]; [left; reflexivity|]. apply lo_refl.
Qed.
Lemma le_none {A} (y : option A) : le_opt None y. Proof. left. reflexivity. Qed.

Section Curve.
Variables (K : Fld) (o o' : cops K) (P : fparams).
Definition cle : Prop :=
  (forall p q, le_opt (co_aa K o p q) (co_aa K o' p q)) /\ (forall p q, le_opt (co_pa K o p q) (co_pa K o' p q)) /\
  (forall p q, le_opt (co_pp K o p q) (co_pp K o' p q)) /\ (forall p, le_opt (co_dbl K o p) (co_dbl K o' p)) /\ (forall p, le_opt (co_into K o p) (co_into K o' p)).
Hypothesis L : cle.
Let Haa := proj1 L. Let Hpa := proj1 (proj2 L). Let Hpp := proj1 (proj2 (proj2 L)). Let Hdb := proj1 (proj2 (proj2 (proj2 L))). Let Hin := proj2 (proj2 (proj2 (proj2 L))).
Lemma m_digits point ds : forall res, le_opt (l_digits K o point res ds) (l_digits K o' point res ds).
Proof.
  induction ds as [|d ds IH]; intros res; [apply lo_refl|]. cbn [l_digits]. apply lo_bind; [|exact IH].
  unfold l_step. apply lo_bind; [apply Hdb|]. intros a. destruct d; [apply lo_refl|apply Hpp|apply Hpp].
Qed.
Lemma m_scalar p s : le_opt (l_scalar K o P p s) (l_scalar K o' P p s).
Proof. unfold l_scalar. destruct (fto_nafs P s); [apply m_digits|apply lo_refl]. Qed.
Lemma m_mul p s : le_opt (l_mul K o P p s) (l_mul K o' P p s). Proof. apply m_scalar. Qed.
Lemma m_mul_into p s : le_opt (l_mul_into K o P p s) (l_mul_into K o' P p s).
Proof. apply lo_bind; [apply m_mul|exact Hin]. Qed.
Lemma m_bucket_add_assign b a : le_opt (l_bucket_add_assign K o b a) (l_bucket_add_assign K o' b a).
Proof. destruct b; [apply lo_refl| |]; (apply lo_bind; [apply Haa || apply Hpa|intros; apply lo_refl]). Qed.
Lemma m_bucket_add b p : le_opt (l_bucket_add K o b p) (l_bucket_add K o' b p).
Proof. destruct b; [apply lo_refl|apply Hpa|apply Hpp]. Qed.
Lemma m_bucket_update l : forall i a, le_opt (l_bucket_update K o l i a) (l_bucket_update K o' l i a).
Proof.
  induction l as [|b l IH]; intros i a; [apply lo_refl|]. destruct i as [|i]; cbn [l_bucket_update].
  - apply lo_bind; [apply m_bucket_add_assign|intros; apply lo_refl].
  - apply lo_bind; [apply IH|intros; apply lo_refl].
Qed.
Lemma m_fill i c items : forall bk, le_opt (l_fill K o P i c items bk) (l_fill K o' P i c items bk).
Proof.
  induction items as [|[s a] items IH]; intros bk; [apply lo_refl|]. cbn [l_fill]. cbv zeta. apply lo_if; [apply IH|].
  apply lo_bind; [apply m_bucket_update|exact IH].
Qed.
Lemma m_by_parts bk : forall sum acc, le_opt (l_by_parts K o bk sum acc) (l_by_parts K o' bk sum acc).
Proof.
  induction bk as [|b bk IH]; intros sum acc; [apply lo_refl|]. cbn [l_by_parts]. apply lo_bind; [apply m_bucket_add|]. intros s.
  apply lo_bind; [apply Hpp|]. intros a. apply IH.
Qed.
Lemma m_doubles n : forall acc, le_opt (l_doubles K o n acc) (l_doubles K o' n acc).
Proof. induction n as [|n IH]; intros acc; [apply lo_refl|]. cbn [l_doubles]. apply lo_bind; [apply Hdb|exact IH]. Qed.
Lemma m_segment c items i : le_opt (l_segment K o P c items i) (l_segment K o' P c items i).
Proof. apply lo_bind; [apply m_fill|]. intros bk. apply lo_bind; [apply m_by_parts|]. intros s. apply m_doubles. Qed.
Lemma m_segments c items is : forall acc, le_opt (l_segments K o P c items acc is) (l_segments K o' P c items acc is).
Proof.
  induction is as [|i is IH]; intros acc; [apply lo_refl|]. cbn [l_segments]. apply lo_bind; [apply m_segment|]. intros s.
  apply lo_bind; [apply Hpp|exact IH].
Qed.
Lemma m_msm bases coeffs : le_opt (l_msm K o P bases coeffs) (l_msm K o' P bases coeffs). Proof. apply m_segments. Qed.
End Curve.

(** With exact operations. *)
Section ExactCurve.
Variables (K : Fld) (b3 : K) (P : fparams).
Local Notation e := (exact_curve K b3).
Lemma e_digits point ds : forall res, l_digits K e point res ds = Some (fold_left (scalar_step K b3 point) ds res).
Proof. induction ds as [|d ds IH]; intros res; [reflexivity|]. cbn [l_digits fold_left]. rewrite <- IH. destruct d; reflexivity. Qed.
Lemma e_scalar p s : l_scalar K e P p s = scalar_point K b3 P p s.
Proof. unfold l_scalar, scalar_point. destruct (fto_nafs P s); [apply e_digits|reflexivity]. Qed.
Lemma e_mul p s : l_mul K e P p s = aff_mul K b3 P p s. Proof. apply e_scalar. Qed.
Lemma e_mul_into p s : l_mul_into K e P p s = option_map (to_affine K) (aff_mul K b3 P p s).
Proof. unfold l_mul_into. rewrite e_mul. destruct (aff_mul K b3 P p s); reflexivity. Qed.
Lemma e_bucket_add_assign b a : l_bucket_add_assign K e b a = Some (bucket_add_assign K b3 b a). Proof. destruct b; reflexivity. Qed.
Lemma e_bucket_add b p : l_bucket_add K e b p = Some (bucket_add K b3 b p). Proof. destruct b; reflexivity. Qed.
Lemma e_bucket_update l : forall i a, l_bucket_update K e l i a = bucket_update K b3 l i a.
Proof.
  induction l as [|b l IH]; intros i a; [reflexivity|]. destruct i as [|i]; cbn [l_bucket_update bucket_update].
  - rewrite e_bucket_add_assign. reflexivity.
  - rewrite IH. destruct (bucket_update K b3 l i a); reflexivity.
Qed.
Lemma e_fill i c items : forall bk, l_fill K e P i c items bk = fill K b3 P i c items bk.
Proof.
  induction items as [|[s a] items IH]; intros bk; [reflexivity|]. cbn [l_fill fill]. cbv zeta. destruct (_ =? 0)%Z; [apply IH|].
  rewrite e_bucket_update. destruct (bucket_update _ _ _ _ _); [apply IH|reflexivity].
Qed.
Lemma e_by_parts bk : forall sum acc, l_by_parts K e bk sum acc = Some (snd (fold_left (by_parts_step K b3) bk (sum, acc))).
Proof.
  induction bk as [|b bk IH]; intros sum acc; [reflexivity|]. cbn [l_by_parts fold_left]. rewrite e_bucket_add. cbn [obnd exact_curve co_pp]. rewrite IH. reflexivity.
Qed.
Lemma e_doubles n : forall acc, l_doubles K e n acc = Some (doubles K b3 n acc).
Proof. induction n as [|n IH]; intros acc; [reflexivity|]. cbn [l_doubles doubles exact_curve co_dbl obnd]. apply IH. Qed.
Lemma e_segment c items i : l_segment K e P c items i = segment K b3 P c items i.
Proof.
  unfold l_segment, segment. rewrite e_fill. destruct (fill _ _ _ _ _ _ _); [|reflexivity]. cbn [obnd]. rewrite e_by_parts. cbn [obnd]. apply e_doubles.
Qed.
Lemma e_segments c items is : forall acc, l_segments K e P c items acc is = msm_segments K b3 P c items acc is.
Proof.
  induction is as [|i is IH]; intros acc; [reflexivity|]. cbn [l_segments msm_segments]. rewrite e_segment. destruct (segment _ _ _ _ _ _); [|reflexivity]. cbn [obnd exact_curve co_pp]. apply IH.
Qed.
Lemma e_msm bases coeffs : l_msm K e P bases coeffs = msm K b3 P bases coeffs. Proof. apply e_segments. Qed.
End ExactCurve.

(** The guarded operations against the two others. *)
Section Guarded.
Variables (K : Fld) (b3 : K) (sq : K -> K) (inv : K -> option (option K)) (lost inv_ok : K -> bool).
Hypothesis SQ : forall a, lost a = false -> sq a = kmul a a.
Hypothesis INV : forall a, inv_ok a = true -> inv a = Some (kinvert a).
Lemma guard_sq {A} l (a : A) : guard K lost l a = None \/ (guard K lost l a = Some a /\ sq_exact K sq l).
Proof.
  unfold guard. destruct (forallb _ l) eqn:E; [|left; reflexivity]. right. split; [reflexivity|]. apply Forall_forall. intros x I.
  rewrite forallb_forall in E. specialize (E x I). apply negb_true_iff in E. exact (SQ x E).
Qed.
Lemma guarded_limb : cle K (guarded_curve K b3 lost inv_ok) (limb_curve K b3 sq inv).
Proof.
  repeat split; intros; cbn [guarded_curve limb_curve co_aa co_pa co_pp co_dbl co_into].
  - destruct (guard_sq (add_affine_squares K p q) (aff_add K b3 p q)) as [->|[-> X]]; [left; reflexivity|right]. rewrite (ex_add_affine K sq b3 p q X). reflexivity.
  - destruct (guard_sq (add_mixed_squares K q p) (proj_add_aff K b3 p q)) as [->|[-> X]]; [left; reflexivity|right]. rewrite (ex_add_mixed K sq b3 q p X). reflexivity.
  - destruct (guard_sq (add_projective_squares K p q) (proj_add K b3 p q)) as [->|[-> X]]; [left; reflexivity|right]. rewrite (ex_add K sq b3 p q X). reflexivity.
  - destruct (guard_sq (double_projective_squares K p) (double_projective_point K b3 p)) as [->|[-> X]]; [left; reflexivity|right]. rewrite (ex_double K sq b3 p X). reflexivity.
  - destruct (inv_ok (jz p)) eqn:E; [right|left; reflexivity]. unfold l_to_affine, to_affine. rewrite (INV _ E). cbn [obnd]. destruct (kinvert (jz p)); reflexivity.
Qed.
Lemma guarded_exact : cle K (guarded_curve K b3 lost inv_ok) (exact_curve K b3).
Proof.
  repeat split; intros; cbn [guarded_curve exact_curve co_aa co_pa co_pp co_dbl co_into]; unfold guard;
    match goal with |- le_opt (if ?b then _ else _) _ => destruct b end; (left; reflexivity) || (right; reflexivity).
Qed.
End Guarded.

Section Protocol.
Variables (F : Fld) (limbs : F -> l4) (P : fparams) (K1 K2 : Fld) (g1 : aff K1) (g2 : aff K2) (T prep : Type) (eqT : T -> T -> bool).
Variables o o' : gops F K1 K2 T prep.
Definition gle : Prop :=
  cle K1 (go_1 _ _ _ _ _ o) (go_1 _ _ _ _ _ o') /\ cle K2 (go_2 _ _ _ _ _ o) (go_2 _ _ _ _ _ o') /\
  (forall q, le_opt (go_prepare _ _ _ _ _ o q) (go_prepare _ _ _ _ _ o' q)) /\ (forall l, le_opt (go_pairing _ _ _ _ _ o l) (go_pairing _ _ _ _ _ o' l)) /\
  (forall k, le_opt (go_fft _ _ _ _ _ o k) (go_fft _ _ _ _ _ o' k)) /\ (forall f x, le_opt (go_z _ _ _ _ _ o f x) (go_z _ _ _ _ _ o' f x)) /\
  (forall f v, le_opt (go_divide _ _ _ _ _ o f v) (go_divide _ _ _ _ _ o' f v)) /\ (forall a, le_opt (go_invert _ _ _ _ _ o a) (go_invert _ _ _ _ _ o' a)).
Hypothesis L : gle.
Let L1 := proj1 L. Let L2 := proj1 (proj2 L). Let Hprep := proj1 (proj2 (proj2 L)). Let Hpair := proj1 (proj2 (proj2 (proj2 L))).
Let Hfft := proj1 (proj2 (proj2 (proj2 (proj2 L)))). Let Hz := proj1 (proj2 (proj2 (proj2 (proj2 (proj2 L))))).
Let Hdiv := proj1 (proj2 (proj2 (proj2 (proj2 (proj2 (proj2 L)))))). Let Hinv := proj2 (proj2 (proj2 (proj2 (proj2 (proj2 (proj2 L)))))).
Let P1 := proj1 (proj2 (proj2 L1)). Let P2 := proj1 (proj2 (proj2 L2)). Let A1 := proj1 (proj2 L1). Let A2 := proj1 (proj2 L2).
Let I1 := proj2 (proj2 (proj2 (proj2 L1))). Let I2 := proj2 (proj2 (proj2 (proj2 L2))).
Local Notation into1 x := (l_into1 F limbs P K1 K2 T prep x). Local Notation into2 x := (l_into2 F limbs P K1 K2 T prep x).
Lemma m_into1 p s : le_opt (into1 o p s) (into1 o' p s). Proof. apply m_mul_into, L1. Qed.
Lemma m_into2 p s : le_opt (into2 o p s) (into2 o' p s). Proof. apply m_mul_into, L2. Qed.
Lemma m_eval_one pt inv alpha beta x y z :
  le_opt (l_eval_one F limbs P K1 K2 g1 g2 T prep o pt inv alpha beta x y z) (l_eval_one F limbs P K1 K2 g1 g2 T prep o' pt inv alpha beta x y z).
Proof.
  unfold l_eval_one. apply lo_bind; [apply lo_refl|]; intros a. apply lo_bind; [apply lo_refl|]; intros b. apply lo_bind; [apply lo_refl|]; intros c.
  apply lo_bind; [apply lo_if; [apply lo_refl|apply m_into1]|]; intros a'. apply lo_bind; [apply lo_if; [apply lo_refl|apply m_into1]|]; intros b'.
  apply lo_bind; [apply lo_if; [apply lo_refl|apply m_into2]|]; intros c'. apply lo_bind; [apply m_into1|]; intros d. apply lo_refl.
Qed.
Lemma m_eval_all pt inv alpha beta : forall a b c,
  le_opt (l_eval_all F limbs P K1 K2 g1 g2 T prep o pt inv alpha beta a b c) (l_eval_all F limbs P K1 K2 g1 g2 T prep o' pt inv alpha beta a b c).
Proof.
  induction a as [|x a IH]; intros b c; [apply lo_refl|]. destruct b as [|y b]; [apply lo_refl|]. destruct c as [|z c]; [apply lo_refl|].
  cbn [l_eval_all]. apply lo_bind; [apply m_eval_one|]. intros [[[x' y'] z'] e']. apply lo_bind; [apply IH|]. intros [[[xs ys] zs] es]. apply lo_refl.
Qed.
Lemma m_eval len pt inv alpha beta a b c :
  le_opt (l_eval F limbs P K1 K2 g1 g2 T prep o len pt inv alpha beta a b c) (l_eval F limbs P K1 K2 g1 g2 T prep o' len pt inv alpha beta a b c).
Proof. apply lo_if; [apply m_eval_all|apply lo_refl]. Qed.
Lemma m_prepare vk : le_opt (l_prepare F K1 K2 T prep o vk) (l_prepare F K1 K2 T prep o' vk).
Proof.
  unfold l_prepare. apply lo_bind; [apply Hprep|]; intros b. apply lo_bind; [apply Hpair|]; intros e. apply lo_bind; [apply Hprep|]; intros g.
  apply lo_bind; [apply Hprep|]; intros d. apply lo_refl.
Qed.
Theorem m_setup cs alpha beta gamma delta tau :
  le_out (l_setup F limbs P K1 K2 g1 g2 T prep o cs alpha beta gamma delta tau) (l_setup F limbs P K1 K2 g1 g2 T prep o' cs alpha beta gamma delta tau).
Proof.
  unfold l_setup. cbv zeta. apply lu_bind; [apply Hfft|]; intros f. apply lu_bind; [apply Hinv|]; intros gi. apply lu_bind; [apply Hinv|]; intros di.
  destruct gi as [gi|]; [|apply lu_refl]. destruct di as [di|]; [|apply lu_refl]. apply lu_bind; [apply Hz|]; intros z.
  apply lu_bind; [apply lo_map; intros; apply m_into1|]; intros h. apply lu_bind; [apply lo_refl|]; intros lag.
  apply lu_bind; [apply lo_refl|]; intros [a_x a_w]. apply lu_bind; [apply lo_refl|]; intros [b_x b_w]. apply lu_bind; [apply lo_refl|]; intros [c_x c_w].
  apply lu_bind; [apply m_eval|]; intros [[[a_i b1_i] b2_i] ic]. apply lu_bind; [apply m_eval|]; intros [[[a_u b1_u] b2_u] lq].
  apply lu_bind; [apply m_into1|]; intros ag. apply lu_bind; [apply m_into1|]; intros bg. apply lu_bind; [apply m_into2|]; intros bg2.
  apply lu_bind; [apply m_into2|]; intros gg2. apply lu_bind; [apply m_into1|]; intros dg. apply lu_bind; [apply m_into2|]; intros dg2.
  apply lu_bind; [apply m_prepare|]; intros pvk. apply lu_refl.
Qed.
Lemma m_quotient f a b c : le_opt (l_quotient_poly F K1 K2 T prep o f a b c) (l_quotient_poly F K1 K2 T prep o' f a b c).
Proof.
  unfold l_quotient_poly. do 6 (apply lo_bind; [apply lo_refl|]; intro). apply lo_bind; [apply Hdiv|]; intros q. apply lo_refl.
Qed.
Lemma m_msm1 bs cs : le_opt (l_msm1 F limbs P K1 K2 T prep o bs cs) (l_msm1 F limbs P K1 K2 T prep o' bs cs). Proof. apply m_msm, L1. Qed.
Lemma m_msm2 bs cs : le_opt (l_msm2 F limbs P K1 K2 T prep o bs cs) (l_msm2 F limbs P K1 K2 T prep o' bs cs). Proof. apply m_msm, L2. Qed.
Theorem m_prove pk cs r s : le_out (l_prove F limbs P K1 K2 T prep o pk cs r s) (l_prove F limbs P K1 K2 T prep o' pk cs r s).
Proof.
  unfold l_prove. cbv zeta. apply lu_bind; [apply Hfft|]; intros f. apply lu_bind; [apply lo_refl|]; intros [[a b] c]. apply lu_bind; [apply m_quotient|]; intros q.
  apply lu_bind; [apply m_msm1|]; intros q'. apply lu_bind; [apply m_msm1|]; intros l. apply lu_bind; [apply m_msm1|]; intros ai.
  apply lu_bind; [apply lo_refl|]; intros ta. apply lu_bind; [apply m_msm1|]; intros aa. apply lu_bind; [apply m_msm1|]; intros bi.
  apply lu_bind; [apply lo_refl|]; intros tb. apply lu_bind; [apply m_msm1|]; intros ba. apply lu_bind; [apply m_msm2|]; intros b2i.
  apply lu_bind; [apply lo_refl|]; intros tb2. apply lu_bind; [apply m_msm2|]; intros b2a. apply lu_if; [apply lu_refl|].
  apply lu_bind; [apply m_mul, L1|]; intros dr. apply lu_bind; [apply A1|]; intros ga. apply lu_bind; [apply m_mul, L2|]; intros ds. apply lu_bind; [apply A2|]; intros gb.
  apply lu_bind; [apply m_scalar, L1|]; intros drs. apply lu_bind; [apply m_mul, L1|]; intros als. apply lu_bind; [apply m_mul, L1|]; intros br.
  do 3 (apply lu_bind; [apply P1|]; intro). apply lu_bind; [apply P1|]; intros ga'. apply lu_bind; [apply m_scalar, L1|]; intros aas.
  do 2 (apply lu_bind; [apply P1|]; intro). do 2 (apply lu_bind; [apply P2|]; intro). apply lu_bind; [apply m_scalar, L1|]; intros bbr.
  do 3 (apply lu_bind; [apply P1|]; intro). apply lu_bind; [apply I1|]; intros ra. apply lu_bind; [apply I2|]; intros rb. apply lu_bind; [apply I1|]; intros rc. apply lu_refl.
Qed.
Lemma m_inputs l : forall acc, le_opt (l_inputs F limbs P K1 K2 T prep o acc l) (l_inputs F limbs P K1 K2 T prep o' acc l).
Proof.
  induction l as [|[i b] l IH]; intros acc; [apply lo_refl|]. cbn [l_inputs]. apply lo_bind; [apply m_mul, L1|]; intros t. apply lo_bind; [apply P1|]; intros a. apply IH.
Qed.
Theorem m_verify vk pf xs : le_out (l_verify F limbs P K1 K2 T prep eqT o vk pf xs) (l_verify F limbs P K1 K2 T prep eqT o' vk pf xs).
Proof.
  unfold l_verify. destruct (cpvk_ic K1 T prep vk) as [|ic0 ic]; [apply lu_refl|]. apply lu_if; [apply lu_refl|].
  apply lu_bind; [apply m_inputs|]; intros acc. apply lu_bind; [apply Hprep|]; intros b. apply lu_bind; [apply I1|]; intros a. apply lu_bind; [apply Hpair|]; intros e. apply lu_refl.
Qed.
End Protocol.

(** With exact operations, the runs of Groth16Points.v. *)
Section Exact.
Variables (F : Fld) (limbs : F -> l4) (P : fparams) (two_adicity : nat) (root gen : F).
Variables (K1 K2 : Fld) (b1 : K1) (b2 : K2) (g1 : aff K1) (g2 : aff K2).
Variables (T prep : Type) (prepare_point : aff K2 -> prep) (multi_pairing : list (aff K1 * prep) -> option T) (eqT : T -> T -> bool).
Definition exact_ops : gops F K1 K2 T prep :=
  mkGops F K1 K2 T prep (exact_curve K1 b1) (exact_curve K2 b2) (fun q => Some (prepare_point q)) multi_pairing
    (fft_new F two_adicity root gen) (fun f x => Some (fft_z F f x)) (fun f v => divide_by_z_on_coset F f gen v) (fun a => Some (kinvert a)).
Local Notation e := exact_ops.
Lemma e_into1 p s : l_into1 F limbs P K1 K2 T prep e p s = mul_into1 F limbs P K1 b1 p s. Proof. apply e_mul_into. Qed.
Lemma e_into2 p s : l_into2 F limbs P K1 K2 T prep e p s = mul_into2 F limbs P K2 b2 p s. Proof. apply e_mul_into. Qed.
Lemma e_eval_one pt inv alpha beta x y z :
  l_eval_one F limbs P K1 K2 g1 g2 T prep e pt inv alpha beta x y z = c_eval_one F limbs P K1 K2 b1 b2 g1 g2 pt inv alpha beta x y z.
Proof.
  unfold l_eval_one, c_eval_one. destruct (eval_at_tau F pt x) as [a|]; [|reflexivity]. destruct (eval_at_tau F pt y) as [b|]; [|reflexivity].
  destruct (eval_at_tau F pt z) as [c|]; [|reflexivity]. cbn [obnd]. rewrite !e_into1, !e_into2.
  destruct (if kis0 a then _ else _); [|reflexivity]. cbn [obnd]. destruct (if kis0 b then _ else mul_into1 F limbs P K1 b1 g1 b); [|reflexivity]. cbn [obnd].
  destruct (if kis0 b then _ else _); [|reflexivity]. cbn [obnd]. destruct (mul_into1 _ _ _ _ _ _ _); reflexivity.
Qed.
Lemma e_eval_all pt inv alpha beta : forall a b c,
  l_eval_all F limbs P K1 K2 g1 g2 T prep e pt inv alpha beta a b c = c_eval_all F limbs P K1 K2 b1 b2 g1 g2 pt inv alpha beta a b c.
Proof.
  induction a as [|x a IH]; intros b c; [reflexivity|]. destruct b as [|y b]; [reflexivity|]. destruct c as [|z c]; [reflexivity|].
  cbn [l_eval_all c_eval_all]. rewrite e_eval_one, IH. destruct (c_eval_one _ _ _ _ _ _ _ _ _ _ _ _ _ _ _ _) as [[[[x' y'] z'] e']|]; [|reflexivity].
  destruct (c_eval_all _ _ _ _ _ _ _ _ _ _ _ _ _ _ _ _) as [[[[xs ys] zs] es]|]; reflexivity.
Qed.
Lemma e_eval len pt inv alpha beta a b c :
  l_eval F limbs P K1 K2 g1 g2 T prep e len pt inv alpha beta a b c = c_eval F limbs P K1 K2 b1 b2 g1 g2 len pt inv alpha beta a b c.
Proof. unfold l_eval, c_eval. rewrite e_eval_all. reflexivity. Qed.
Lemma e_prepare vk : l_prepare F K1 K2 T prep e vk = c_prepare K1 K2 T prep prepare_point multi_pairing vk.
Proof. unfold l_prepare, c_prepare. cbn [exact_ops go_prepare go_pairing obnd]. destruct (multi_pairing _); reflexivity. Qed.
Lemma map_opt_ext {A B} (f g : A -> option B) l : (forall a, f a = g a) -> map_opt f l = map_opt g l.
Proof. intros H. induction l as [|a l IH]; [reflexivity|]. cbn [map_opt]. rewrite H, IH. reflexivity. Qed.
Lemma obind_eq {A B} (x y : option A) (f g : A -> outcome B) : x = y -> (forall a, f a = g a) -> obind x f = obind y g.
Proof. intros -> H. destruct y; [apply H|reflexivity]. Qed.
Lemma obind_skip {A B} (x : option A) a (f : A -> outcome B) g : x = Some a -> f a = g -> obind x f = g.
Proof. intros -> <-. reflexivity. Qed.
Theorem e_setup cs alpha beta gamma delta tau :
  l_setup F limbs P K1 K2 g1 g2 T prep e cs alpha beta gamma delta tau =
  c_setup F limbs P two_adicity root gen K1 K2 b1 b2 g1 g2 T prep prepare_point multi_pairing cs alpha beta gamma delta tau.
Proof.
  unfold l_setup, c_setup. cbv zeta. apply obind_eq; [reflexivity|]; intros f. apply obind_skip with (a := kinvert gamma); [reflexivity|]. apply obind_skip with (a := kinvert delta); [reflexivity|].
  destruct (kinvert gamma) as [gi|]; [|reflexivity]. destruct (kinvert delta) as [di|]; [|reflexivity].
  apply obind_skip with (a := fft_z F f tau); [reflexivity|]. apply obind_eq; [apply map_opt_ext; intros; apply e_into1|]; intros h. apply obind_eq; [reflexivity|]; intros lag.
  apply obind_eq; [reflexivity|]; intros [a_x a_w]. apply obind_eq; [reflexivity|]; intros [b_x b_w]. apply obind_eq; [reflexivity|]; intros [c_x c_w].
  apply obind_eq; [apply e_eval|]; intros [[[a_i b1_i] b2_i] ic]. apply obind_eq; [apply e_eval|]; intros [[[a_u b1_u] b2_u] lq].
  apply obind_eq; [apply e_into1|]; intros ag. apply obind_eq; [apply e_into1|]; intros bg. apply obind_eq; [apply e_into2|]; intros bg2.
  apply obind_eq; [apply e_into2|]; intros gg2. apply obind_eq; [apply e_into1|]; intros dg. apply obind_eq; [apply e_into2|]; intros dg2.
  apply obind_eq; [apply e_prepare|]; intros pvk. reflexivity.
Qed.
Lemma e_quotient f a b c : l_quotient_poly F K1 K2 T prep e f a b c = quotient_poly F gen f a b c.
Proof.
  unfold l_quotient_poly, quotient_poly. cbn [exact_ops go_divide].
  destruct (idft F f a); [|reflexivity]. destruct (idft F f b); [|reflexivity]. destruct (idft F f c); [|reflexivity]. cbn [obnd].
  destruct (coset_dft F f _); [|reflexivity]. destruct (coset_dft F f _); [|reflexivity]. destruct (coset_dft F f _); [|reflexivity]. cbn [obnd].
  destruct (divide_by_z_on_coset F f gen _); reflexivity.
Qed.
Lemma e_msm1 bs cs : l_msm1 F limbs P K1 K2 T prep e bs cs = msm1 F limbs P K1 b1 bs cs. Proof. apply e_msm. Qed.
Lemma e_msm2 bs cs : l_msm2 F limbs P K1 K2 T prep e bs cs = msm2 F limbs P K2 b2 bs cs. Proof. apply e_msm. Qed.
Theorem e_prove pk cs r s :
  l_prove F limbs P K1 K2 T prep e pk cs r s = c_prove F limbs P two_adicity root gen K1 K2 b1 b2 pk cs r s.
Proof.
  unfold l_prove, c_prove. cbv zeta. apply obind_eq; [reflexivity|]; intros f. apply obind_eq; [reflexivity|]; intros [[a b] c].
  apply obind_eq; [apply e_quotient|]; intros q. apply obind_eq; [apply e_msm1|]; intros q'. apply obind_eq; [apply e_msm1|]; intros l. apply obind_eq; [apply e_msm1|]; intros ai.
  apply obind_eq; [reflexivity|]; intros ta. apply obind_eq; [apply e_msm1|]; intros aa. apply obind_eq; [apply e_msm1|]; intros bi.
  apply obind_eq; [reflexivity|]; intros tb. apply obind_eq; [apply e_msm1|]; intros ba. apply obind_eq; [apply e_msm2|]; intros b2i.
  apply obind_eq; [reflexivity|]; intros tb2. apply obind_eq; [apply e_msm2|]; intros b2a. destruct (_ || _)%bool; [reflexivity|].
  apply obind_eq; [apply e_mul|]; intros dr. eapply obind_skip; [reflexivity|]. apply obind_eq; [apply e_mul|]; intros ds. eapply obind_skip; [reflexivity|].
  apply obind_eq; [apply e_scalar|]; intros drs. apply obind_eq; [apply e_mul|]; intros als. apply obind_eq; [apply e_mul|]; intros br.
  do 4 (eapply obind_skip; [reflexivity|]). apply obind_eq; [apply e_scalar|]; intros aas.
  do 4 (eapply obind_skip; [reflexivity|]). apply obind_eq; [apply e_scalar|]; intros bbr.
  do 6 (eapply obind_skip; [reflexivity|]). reflexivity.
Qed.
Lemma e_inputs l : forall acc, l_inputs F limbs P K1 K2 T prep e acc l = c_inputs F limbs P K1 b1 acc l.
Proof.
  induction l as [|[i b] l IH]; intros acc; [reflexivity|]. cbn [l_inputs c_inputs]. unfold exact_ops at 1. cbn [go_1]. rewrite e_mul.
  destruct (aff_mul K1 b1 P b _); [|reflexivity]. cbn [obnd exact_ops go_1 exact_curve co_pp]. apply IH.
Qed.
Theorem e_verify vk pf xs : l_verify F limbs P K1 K2 T prep eqT e vk pf xs = c_verify F limbs P K1 K2 b1 T prep prepare_point multi_pairing eqT vk pf xs.
Proof.
  unfold l_verify, c_verify. destruct (cpvk_ic K1 T prep vk) as [|ic0 ic]; [reflexivity|]. destruct (negb _); [reflexivity|]. rewrite e_inputs.
  destruct (c_inputs _ _ _ _ _ _ _); reflexivity.
Qed.
End Exact.

(** Three runs that agree: one that panics more often than the two others and does not panic. *)
Section Runs.
Variables (F : Fld) (limbs : F -> l4) (P : fparams) (two_adicity : nat) (root gen : F).
Variables (K1 K2 : Fld) (b1 : K1) (b2 : K2) (g1 : aff K1) (g2 : aff K2).
Variables (T prep : Type) (prepare_point : aff K2 -> prep) (multi_pairing : list (aff K1 * prep) -> option T) (eqT : T -> T -> bool).
Variables og ol : gops F K1 K2 T prep.
Hypothesis GL : gle F K1 K2 T prep og ol.
Hypothesis GE : gle F K1 K2 T prep og (exact_ops F two_adicity root gen K1 K2 b1 b2 T prep prepare_point multi_pairing).
Lemma two {A} (x y z : outcome A) : le_out x y -> le_out x z -> x <> Panicked -> y = x /\ z = x.
Proof. intros [->| ->] [H|H] N; auto; exfalso; apply N; auto. Qed.
Lemma run_setup cs alpha beta gamma delta tau : l_setup F limbs P K1 K2 g1 g2 T prep og cs alpha beta gamma delta tau <> Panicked ->
  l_setup F limbs P K1 K2 g1 g2 T prep ol cs alpha beta gamma delta tau = l_setup F limbs P K1 K2 g1 g2 T prep og cs alpha beta gamma delta tau /\
  c_setup F limbs P two_adicity root gen K1 K2 b1 b2 g1 g2 T prep prepare_point multi_pairing cs alpha beta gamma delta tau = l_setup F limbs P K1 K2 g1 g2 T prep og cs alpha beta gamma delta tau.
Proof. rewrite <- e_setup. apply two; apply m_setup; assumption. Qed.
Lemma run_prove pk cs r s : l_prove F limbs P K1 K2 T prep og pk cs r s <> Panicked ->
  l_prove F limbs P K1 K2 T prep ol pk cs r s = l_prove F limbs P K1 K2 T prep og pk cs r s /\
  c_prove F limbs P two_adicity root gen K1 K2 b1 b2 pk cs r s = l_prove F limbs P K1 K2 T prep og pk cs r s.
Proof. rewrite <- (e_prove F limbs P two_adicity root gen K1 K2 b1 b2 T prep prepare_point multi_pairing). apply two; apply m_prove; assumption. Qed.
Lemma run_prepare vk : l_prepare F K1 K2 T prep og vk <> None ->
  l_prepare F K1 K2 T prep ol vk = l_prepare F K1 K2 T prep og vk /\ c_prepare K1 K2 T prep prepare_point multi_pairing vk = l_prepare F K1 K2 T prep og vk.
Proof.
  rewrite <- (e_prepare F two_adicity root gen K1 K2 b1 b2 T prep prepare_point multi_pairing). intros N.
  destruct (m_prepare F K1 K2 T prep og ol GL vk) as [X|X]; [destruct (N X)|]. destruct (m_prepare F K1 K2 T prep og _ GE vk) as [Y|Y]; [destruct (N Y)|].
  split; symmetry; assumption.
Qed.
Lemma run_verify vk pf xs : l_verify F limbs P K1 K2 T prep eqT og vk pf xs <> Panicked ->
  l_verify F limbs P K1 K2 T prep eqT ol vk pf xs = l_verify F limbs P K1 K2 T prep eqT og vk pf xs /\
  c_verify F limbs P K1 K2 b1 T prep prepare_point multi_pairing eqT vk pf xs = l_verify F limbs P K1 K2 T prep eqT og vk pf xs.
Proof. rewrite <- (e_verify F limbs P two_adicity root gen K1 K2 b1 b2 T prep prepare_point multi_pairing). apply two; apply m_verify; assumption. Qed.
End Runs.

(** Runs of the guarded operations on the identity and on points with z = 1 (used by the examples of C74). *)
Section Trivial.
Variables (K : Fld) (b3 : K) (lost inv_ok : K -> bool) (P : fparams).
Hypothesis L0 : lost k0 = false.
Hypothesis L1 : lost k1 = false.
Hypothesis I0 : inv_ok k0 = true.
Hypothesis I1 : inv_ok k1 = true.
Local Notation g := (guarded_curve K b3 lost inv_ok). Local Notation id := (proj_identity K). Local Notation O := (aff_identity K).
Local Open Scope fld_scope.
Add Field trK : (kth K).
Lemma t_is_id : proj_is_identity K id = true. Proof. apply keqb_eq. reflexivity. Qed.
Lemma t_dbl : co_dbl K g id = Some id.
Proof.
  cbn [guarded_curve co_dbl]. unfold guard, double_projective_squares. cbn [proj_identity jx jy jz forallb]. rewrite L0, L1. cbn [negb andb].
  apply f_equal. unfold double_projective_point, proj_identity. cbn [jx jy jz]. cbv zeta. unfold kdbl, ksq. apply f_equal3; ring.
Qed.
Lemma t_pp_l p : co_pp K g id p = Some p.
Proof. cbn [guarded_curve co_pp]. unfold guard, add_projective_squares, proj_add, add_projective_point. rewrite t_is_id. reflexivity. Qed.
Lemma t_pa_l p : co_pa K g id p = Some (to_extended K p).
Proof.
  cbn [guarded_curve co_pa]. unfold guard, add_mixed_squares, proj_add_aff, add_mixed_point, aff_is_identity, to_extended, aff_is_identity. rewrite t_is_id, orb_true_r. cbn [forallb].
  destruct (ainf p); reflexivity.
Qed.
Lemma t_into_id : co_into K g id = Some O.
Proof. cbn [guarded_curve co_into proj_identity jz]. rewrite I0. unfold to_affine, kinvert, proj_identity. cbn [jz]. assert (E : kis0 (0 : K) = true) by (apply keqb_eq; reflexivity). rewrite E. reflexivity. Qed.
Lemma t_into x y : co_into K g (Prj x y k1) = Some (Aff x y false).
Proof.
  cbn [guarded_curve co_into jz]. rewrite I1. unfold to_affine, kinvert. cbn [jx jy jz].
  assert (N : kis0 (1 : K) = false). { destruct (kis0 (1 : K)) eqn:Z; [|reflexivity]. exfalso. apply (k1_neq0 K), (keqb_eq K), Z. }
  rewrite N. apply f_equal. apply f_equal3; [field; exact (k1_neq0 K)|field; exact (k1_neq0 K)|reflexivity].
Qed.
Lemma t_zeros point n : l_digits K g point id (repeat NZero n) = Some id.
Proof. induction n as [|n IH]; [reflexivity|]. cbn [repeat l_digits]. unfold l_step. rewrite t_dbl. exact IH. Qed.
Lemma t_one point n : l_digits K g point id (repeat NZero n ++ [NPlus]) = Some point.
Proof.
  induction n as [|n IH]; cbn [repeat app l_digits]; unfold l_step; rewrite t_dbl; cbn [obnd]; [rewrite t_pp_l; reflexivity|exact IH].
Qed.
Definition nafs_zero (s : l4) : Prop := exists n, fto_nafs P s = Some (repeat NZero n).
Definition nafs_one (s : l4) : Prop := exists n, fto_nafs P s = Some (repeat NZero n ++ [NPlus]).
Lemma t_scalar_0 p s : nafs_zero s -> l_scalar K g P p s = Some id.
Proof. intros (n & E). unfold l_scalar. rewrite E. apply t_zeros. Qed.
Lemma t_scalar_1 p s : nafs_one s -> l_scalar K g P p s = Some p.
Proof. intros (n & E). unfold l_scalar. rewrite E. apply t_one. Qed.
Lemma t_mul_into_0 p s : nafs_zero s -> l_mul_into K g P p s = Some O.
Proof. intros H. unfold l_mul_into, l_mul. rewrite (t_scalar_0 _ _ H). exact t_into_id. Qed.
Lemma t_mul_into_1 x y s : nafs_one s -> l_mul_into K g P (Aff x y false) s = Some (Aff x y false).
Proof. intros H. unfold l_mul_into, l_mul. rewrite (t_scalar_1 _ _ H). apply t_into. Qed.
(** Sums of products of the identity. *)
Definition tb (b : bucket K) : Prop := b = BNone K \/ b = BAffine K O \/ b = BProjective K id.
Lemma t_aa : co_aa K g O O = Some id. Proof. reflexivity. Qed.
Lemma t_pa : co_pa K g id O = Some id. Proof. rewrite t_pa_l. reflexivity. Qed.
Lemma t_assign b : tb b -> exists b', l_bucket_add_assign K g b O = Some b' /\ tb b'.
Proof.
  intros [->|[->| ->]]; cbn [l_bucket_add_assign]; [exists (BAffine K O); split; [reflexivity|right; left; reflexivity]| |];
    (exists (BProjective K id); split; [|right; right; reflexivity]); [rewrite t_aa|rewrite t_pa]; reflexivity.
Qed.
Lemma t_update l : Forall tb l -> forall i, (i < length l)%nat -> exists l', l_bucket_update K g l i O = Some l' /\ Forall tb l' /\ length l' = length l.
Proof.
  induction 1 as [|b l H HS IH]; intros i Hi; [cbn in Hi; lia|]. destruct i as [|i]; cbn [l_bucket_update].
  - destruct (t_assign b H) as (b' & E & H'). rewrite E. exists (b' :: l). split; [reflexivity|]. split; [apply Forall_cons; assumption|reflexivity].
  - cbn in Hi. destruct (IH i) as (l' & E & H' & N); [lia|]. rewrite E. exists (b :: l'). split; [reflexivity|]. split; [apply Forall_cons; assumption|cbn; lia].
Qed.
Lemma get_at_range i c v : (0 <= c)%Z -> (0 <= get_at i c v < 2 ^ c)%Z.
Proof. intros Hc. unfold get_at. cbv zeta. pose proof (Z.pow_pos_nonneg 2 c). destruct (_ <=? _)%Z; [lia|]. apply Z.mod_pos_bound. lia. Qed.
Lemma t_fill i c items : (0 <= c)%Z -> Forall (fun v => snd v = O) items -> forall bk, Forall tb bk -> length bk = Z.to_nat (2 ^ c - 1) ->
  exists bk', l_fill K g P i c items bk = Some bk' /\ Forall tb bk'.
Proof.
  intros Hc. induction 1 as [|[s a] items H HS IH]; intros bk Hb N; [exists bk; split; [reflexivity|exact Hb]|]. cbn [l_fill]. cbv zeta.
  destruct (Z.eqb_spec (get_at i c (to_bytes P s)) 0) as [E|E]; [apply IH; assumption|]. cbn [snd] in H. rewrite H. pose proof (get_at_range i c (to_bytes P s) Hc).
  destruct (t_update bk Hb (Z.to_nat (get_at i c (to_bytes P s) - 1))) as (l' & E' & H' & N'); [lia|]. rewrite E'. apply IH; [exact H'|lia].
Qed.
Lemma t_by_parts bk : Forall tb bk -> l_by_parts K g bk id id = Some id.
Proof.
  induction 1 as [|b bk H HS IH]; [reflexivity|]. cbn [l_by_parts].
  assert (E : l_bucket_add K g b id = Some id). { destruct H as [->|[->| ->]]; cbn [l_bucket_add]; [reflexivity|exact t_pa|apply t_pp_l]. }
  rewrite E. cbn [obnd]. rewrite t_pp_l. exact IH.
Qed.
Lemma t_doubles n : l_doubles K g n id = Some id. Proof. induction n as [|n IH]; [reflexivity|]. cbn [l_doubles]. rewrite t_dbl. exact IH. Qed.
Lemma t_segments c items is : (0 <= c)%Z -> Forall (fun v => snd v = O) items -> l_segments K g P c items id is = Some id.
Proof.
  intros Hc H. induction is as [|i is IH]; [reflexivity|]. cbn [l_segments]. unfold l_segment.
  destruct (t_fill (Z.of_nat i) c items Hc H (repeat (BNone K) (Z.to_nat (2 ^ c - 1)))) as (bk & E & B); [|apply repeat_length|].
  - apply Forall_forall. intros b Hb. apply repeat_spec in Hb. left. exact Hb.
  - rewrite E. cbn [obnd]. rewrite (t_by_parts (rev bk)) by (apply Forall_rev, B). cbn [obnd]. rewrite t_doubles. cbn [obnd]. rewrite t_pp_l. exact IH.
Qed.
Lemma t_msm bases coeffs : Forall (fun p => p = O) bases -> l_msm K g P bases coeffs = Some id.
Proof.
  intros H. unfold l_msm. cbv zeta. apply t_segments.
  - unfold msm_window. destruct (_ <? _)%Z; [lia|]. destruct (_ <? _)%Z; [lia|]. pose proof (Z.log2_nonneg (Z.of_nat (length bases))). assert (0 <= (Z.log2 (Z.of_nat (length bases)) + 1) * 69 / 100)%Z by (apply Z.div_pos; lia). lia.
  - revert coeffs. induction H as [|p bases H HS IH]; intros [|c coeffs]; try constructor; [exact H|apply IH].
Qed.
(** A point and its opposite. *)
Lemma t_neq (a b : K) : a <> b -> keqb a b = false.
Proof. intros N. destruct (keqb_spec K a b) as [E|E]; [contradiction|reflexivity]. Qed.
Lemma t_cancel (x y : K) : y <> - y -> co_pp K g (Prj x y k1) (Prj x (- y) k1) = Some id.
Proof.
  intros N. cbn [guarded_curve co_pp]. unfold guard, add_projective_squares, proj_add, add_projective_point, proj_is_identity. cbn [jx jy jz].
  assert (E : keqb (1 : K) 0 = false) by (apply t_neq, (k1_neq0 K)). rewrite E. cbn [orb]. cbv zeta. rewrite keqb_refl.
  assert (E' : keqb (y * 1) (- y * 1) = false). { apply t_neq. intros X. apply N. transitivity (y * 1); [ring|]. rewrite X. ring. }
  rewrite E'. reflexivity.
Qed.
End Trivial.
