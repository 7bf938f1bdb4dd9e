(** Vectors of coefficients over a commutative semiring: schoolbook product and regrouping, as the
    gadgets of big_nat.rs form them, and their values at a point. *)
From Coq Require Import ZArith List Bool Lia Ring.
Import ListNotations.

Section Gen.
Variables (T : Type) (z o : T) (add mul : T -> T -> T).
Hypothesis SR : semi_ring_theory z o add mul (@eq T).
Add Ring gring : SR.
Fixpoint geval (X : T) (v : list T) : T := match v with [] => z | x :: v => add x (mul X (geval X v)) end.
Fixpoint gpow (X : T) (n : nat) : T := match n with O => o | S n => mul X (gpow X n) end.
Fixpoint gadd_at (v : list T) (i : nat) (r : T) : list T :=
  match v, i with [], _ => [] | x :: v, O => add x r :: v | x :: v, S i => x :: gadd_at v i r end.
Definition gp_in (i : nat) (x : T) (P : list T) (jy : nat * T) : list T := gadd_at P (i + fst jy) (mul x (snd jy)).
Definition gp_out (b : list T) (P : list T) (ix : nat * T) : list T := fold_left (gp_in (fst ix) (snd ix)) (combine (seq 0 (length b)) b) P.
Definition gproduct (a b : list T) : list T := fold_left (gp_out b) (combine (seq 0 (length a)) a) (repeat z (length a + length b - 1)).
Definition gg_step (lpg : nat) (X : T) (st : list T * T) (il : nat * T) : list T * T :=
  let shift := if Nat.eqb (fst il mod lpg) 0 then o else snd st in
  (gadd_at (fst st) (fst il / lpg) (mul shift (snd il)), mul shift X).
Definition ggroup (lpg : nat) (X : T) (v : list T) : list T :=
  fst (fold_left (gg_step lpg X) (combine (seq 0 (length v)) v) (repeat z ((length v - 1) / lpg + 1), o)).
(** [v + w], the longer length. *)
Fixpoint gsum (v w : list T) : list T :=
  match v, w with [], w => w | v, [] => v | x :: v, y :: w => add x y :: gsum v w end.

Lemma gadd_len v : forall i r, length (gadd_at v i r) = length v.
Proof. induction v as [|x v IH]; intros [|i] r; cbn; auto. Qed.
Lemma gin_len i x : forall l P, length (fold_left (gp_in i x) l P) = length P.
Proof. induction l as [|a l IH]; intros P; cbn [fold_left]; [reflexivity|]. rewrite IH. apply gadd_len. Qed.
Lemma gout_len b : forall l P, length (fold_left (gp_out b) l P) = length P.
Proof. induction l as [|a l IH]; intros P; cbn [fold_left]; [reflexivity|]. rewrite IH. apply gin_len. Qed.
Lemma gproduct_len a b : length (gproduct a b) = (length a + length b - 1)%nat.
Proof. unfold gproduct. rewrite gout_len. apply repeat_length. Qed.
Lemma ggroup_len lpg X v : length (ggroup lpg X v) = ((length v - 1) / lpg + 1)%nat.
Proof.
  unfold ggroup. assert (A : forall l st, length (fst (fold_left (gg_step lpg X) l st)) = length (fst st)).
  { induction l as [|a l IH]; intros st; cbn [fold_left]; [reflexivity|]. rewrite IH. apply gadd_len. }
  rewrite A. apply repeat_length.
Qed.
Lemma gpow_add X m n : gpow X (m + n) = mul (gpow X m) (gpow X n).
Proof. induction m as [|m IH]; cbn [Nat.add gpow]; [ring|]. rewrite IH. ring. Qed.
Lemma gpow_mul X m n : gpow X (m * n) = gpow (gpow X m) n.
Proof. induction n as [|n IH]; [rewrite Nat.mul_0_r; reflexivity|]. rewrite Nat.mul_succ_r, Nat.add_comm, gpow_add, IH. reflexivity. Qed.
Lemma geval_zeros X n : geval X (repeat z n) = z.
Proof. induction n as [|n IH]; cbn [repeat geval]; [reflexivity|]. rewrite IH. ring. Qed.
Lemma geval_add X : forall v i r, (i < length v)%nat -> geval X (gadd_at v i r) = add (geval X v) (mul (gpow X i) r).
Proof.
  induction v as [|x v IH]; intros [|i] r H; cbn [length] in H; try lia; cbn [gadd_at geval gpow]; [ring|]. rewrite IH by lia. ring.
Qed.
Lemma geval_in X i x : forall b j P, (i + j + length b <= length P)%nat ->
  geval X (fold_left (gp_in i x) (combine (seq j (length b)) b) P) = add (geval X P) (mul (mul (gpow X (i + j)) x) (geval X b)).
Proof.
  induction b as [|y b IH]; intros j P H; cbn [length seq combine fold_left geval]; [ring|]. cbn [length] in H.
  rewrite IH by (unfold gp_in; rewrite gadd_len; lia). unfold gp_in. cbn [fst snd]. rewrite geval_add by lia.
  rewrite <- plus_n_Sm. cbn [gpow]. ring.
Qed.
Lemma geval_out X b : forall a i P, (a = [] \/ i + length a + length b - 1 <= length P)%nat ->
  geval X (fold_left (gp_out b) (combine (seq i (length a)) a) P) = add (geval X P) (mul (gpow X i) (mul (geval X a) (geval X b))).
Proof.
  induction a as [|x a IH]; intros i P H; cbn [length seq combine fold_left geval]; [ring|]. destruct H as [H|H]; [discriminate|]. cbn [length] in H.
  rewrite IH; [|right; unfold gp_out; rewrite gin_len; lia]. unfold gp_out. cbn [fst snd]. rewrite geval_in by lia. rewrite Nat.add_0_r. cbn [gpow]. ring.
Qed.
Theorem geval_product X a b : geval X (gproduct a b) = mul (geval X a) (geval X b).
Proof. unfold gproduct. rewrite geval_out by (rewrite repeat_length; right; lia). rewrite geval_zeros. cbn [gpow]. ring. Qed.
Lemma geval_group_loop lpg X : (0 < lpg)%nat -> forall v i st, ((i mod lpg <> 0)%nat -> snd st = gpow X (i mod lpg)) ->
  (v = [] \/ (i + length v - 1) / lpg < length (fst st))%nat ->
  geval (gpow X lpg) (fst (fold_left (gg_step lpg X) (combine (seq i (length v)) v) st)) = add (geval (gpow X lpg) (fst st)) (mul (gpow X i) (geval X v)).
Proof.
  intros L. induction v as [|x v IH]; intros i st HS HL; cbn [length seq combine fold_left geval]; [ring|]. destruct HL as [H|HL]; [discriminate|]. cbn [length] in HL.
  pose proof (Nat.div_mod i lpg ltac:(lia)) as DM. pose proof (Nat.mod_upper_bound i lpg ltac:(lia)) as MB.
  set (sh := if Nat.eqb (i mod lpg) 0 then o else snd st) in *.
  assert (SH : sh = gpow X (i mod lpg)).
  { unfold sh. destruct (Nat.eqb_spec (i mod lpg) 0) as [E|E]; [rewrite E; reflexivity|apply HS, E]. }
  assert (LI : (i / lpg < length (fst st))%nat).
  { eapply Nat.le_lt_trans; [|exact HL]. apply Nat.div_le_mono; lia. }
  assert (GS : gg_step lpg X st (i, x) = (gadd_at (fst st) (i / lpg) (mul sh x), mul sh X)) by reflexivity. rewrite GS. clearbody sh.
  rewrite IH.
  - cbn [fst snd]. rewrite geval_add by exact LI. rewrite <- gpow_mul, SH.
    replace (gpow X i) with (mul (gpow X (lpg * (i / lpg))) (gpow X (i mod lpg))) by (rewrite <- gpow_add, <- DM; reflexivity).
    assert (E1 : gpow X (S i) = mul X (mul (gpow X (lpg * (i / lpg))) (gpow X (i mod lpg)))) by (rewrite <- gpow_add, <- DM; reflexivity).
    rewrite E1. ring.
  - intros N. cbn [snd]. rewrite SH.
    assert (E : (S i mod lpg = S (i mod lpg))%nat).
    { destruct (Nat.eq_dec (S (i mod lpg)) lpg) as [Q|Q].
      - exfalso. apply N. replace (S i) with ((i / lpg + 1) * lpg)%nat by nia. apply Nat.mod_mul. lia.
      - symmetry. apply (Nat.mod_unique (S i) lpg (i / lpg)); lia. }
    rewrite E. cbn [gpow]. ring.
  - cbn [fst]. rewrite gadd_len. destruct v; [left; reflexivity|right]. cbn [length] in *. eapply Nat.le_lt_trans; [|exact HL]. apply Nat.div_le_mono; lia.
Qed.
Theorem geval_group lpg X v : (0 < lpg)%nat -> geval (gpow X lpg) (ggroup lpg X v) = geval X v.
Proof.
  intros L. unfold ggroup. rewrite geval_group_loop; [|exact L| |].
  - cbn [fst]. rewrite geval_zeros. cbn [gpow]. ring.
  - intros N. exfalso. apply N, Nat.mod_0_l. lia.
  - cbn [fst]. rewrite repeat_length. right. cbn [Nat.add]. lia.
Qed.
Lemma geval_sum X : forall v w, geval X (gsum v w) = add (geval X v) (geval X w).
Proof. induction v as [|x v IH]; intros [|y w]; cbn [gsum geval]; try ring. rewrite IH. ring. Qed.
Lemma gsum_len : forall v w, length (gsum v w) = Nat.max (length v) (length w).
Proof. induction v as [|x v IH]; intros [|y w]; cbn [gsum length]; [reflexivity|reflexivity|lia|]. rewrite IH. reflexivity. Qed.
End Gen.
Arguments geval {T}. Arguments gpow {T}. Arguments gadd_at {T}. Arguments gproduct {T}. Arguments ggroup {T}. Arguments gsum {T}. Arguments gp_in {T}. Arguments gp_out {T}. Arguments gg_step {T}.

(** Homomorphisms. *)
Section Hom.
Variables (T : Type) (z o : T) (add mul : T -> T -> T) (U : Type) (z' o' : U) (add' mul' : U -> U -> U) (h : T -> U).
Hypothesis h0 : h z = z'. Hypothesis h1 : h o = o'.
Hypothesis hadd : forall x y, h (add x y) = add' (h x) (h y).
Hypothesis hmul : forall x y, h (mul x y) = mul' (h x) (h y).
Lemma hom_add_at : forall v i r, map h (gadd_at add v i r) = gadd_at add' (map h v) i (h r).
Proof. induction v as [|x v IH]; intros [|i] r; cbn; rewrite ?IH, ?hadd; reflexivity. Qed.
Lemma hom_in i x : forall l P, map h (fold_left (gp_in add mul i x) l P) = fold_left (gp_in add' mul' i (h x)) (map (fun jy => (fst jy, h (snd jy))) l) (map h P).
Proof. induction l as [|a l IH]; intros P; cbn [fold_left map]; [reflexivity|]. rewrite IH. unfold gp_in at 2 4. cbn [fst snd]. rewrite hom_add_at, hmul. reflexivity. Qed.
Lemma combine_map {A B C} (f : B -> C) : forall (l : list A) (r : list B), map (fun p => (fst p, f (snd p))) (combine l r) = combine l (map f r).
Proof. induction l as [|a l IH]; intros [|b r]; cbn; rewrite ?IH; reflexivity. Qed.
Lemma hom_product a b : map h (gproduct z add mul a b) = gproduct z' add' mul' (map h a) (map h b).
Proof.
  unfold gproduct. rewrite !map_length, <- combine_map.
  assert (A : forall l P, map h (fold_left (gp_out add mul b) l P) = fold_left (gp_out add' mul' (map h b)) (map (fun p => (fst p, h (snd p))) l) (map h P)).
  { induction l as [|a0 l IH]; intros P; cbn [fold_left map]; [reflexivity|]. rewrite IH. unfold gp_out at 2 4. rewrite hom_in. cbn [fst snd]. rewrite map_length, <- combine_map. reflexivity. }
  rewrite A. f_equal. rewrite <- h0. clear. induction (length a + length b - 1)%nat; cbn; congruence.
Qed.
Lemma hom_group lpg X v : map h (ggroup z o add mul lpg X v) = ggroup z' o' add' mul' lpg (h X) (map h v).
Proof.
  unfold ggroup. rewrite !map_length, <- combine_map.
  assert (A : forall l st, map h (fst (fold_left (gg_step o add mul lpg X) l st)) = fst (fold_left (gg_step o' add' mul' lpg (h X)) (map (fun p => (fst p, h (snd p))) l) (map h (fst st), h (snd st)))).
  { induction l as [|a0 l IH]; intros st; cbn [fold_left map]; [reflexivity|]. rewrite IH. f_equal. f_equal. unfold gg_step. cbn [fst snd].
    rewrite hom_add_at. destruct (Nat.eqb _ _); rewrite !hmul, ?h1; reflexivity. }
  rewrite A. cbn [fst snd]. f_equal. f_equal. f_equal; [|exact h1]. rewrite <- h0. clear. induction ((length v - 1) / lpg + 1)%nat; cbn; congruence.
Qed.
Lemma hom_sum : forall v w, map h (gsum add v w) = gsum add' (map h v) (map h w).
Proof. induction v as [|x v IH]; intros [|y w]; cbn; rewrite ?IH, ?hadd; reflexivity. Qed.
Lemma hom_eval X v : h (geval z add mul X v) = geval z' add' mul' (h X) (map h v).
Proof. induction v as [|x v IH]; cbn [geval map]; [exact h0|]. rewrite hadd, hmul, IH. reflexivity. Qed.
Lemma hom_pow X n : h (gpow o mul X n) = gpow o' mul' (h X) n.
Proof. induction n as [|n IH]; cbn [gpow]; [exact h1|]. rewrite hmul, IH. reflexivity. Qed.
End Hom.

(** ** Integers *)
Local Open Scope Z_scope.
Notation zeval := (geval 0 Z.add Z.mul).
Notation zproduct := (gproduct 0 Z.add Z.mul).
Notation zgroup := (ggroup 0 1 Z.add Z.mul).
Notation zsum := (gsum Z.add).
Definition Zsr : semi_ring_theory 0 1 Z.add Z.mul (@eq Z).
Proof. constructor; intros; try ring; auto using Z.add_assoc, Z.mul_assoc, Z.add_comm, Z.mul_comm. Qed.
Definition zev_product := geval_product Z 0 1 Z.add Z.mul Zsr.
Definition zev_group := geval_group Z 0 1 Z.add Z.mul Zsr.
Definition zev_sum := geval_sum Z 0 1 Z.add Z.mul Zsr.
Lemma gpow_Z X n : gpow 1 Z.mul X n = X ^ Z.of_nat n.
Proof. induction n as [|n IH]; [reflexivity|]. cbn [gpow]. rewrite IH, Nat2Z.inj_succ, Z.pow_succ_r by lia. reflexivity. Qed.
(** Coefficients between zero and a bound. *)
Definition below (v w : list Z) : Prop := Forall2 (fun x y => 0 <= x <= y) v w.
Lemma below_zeros n : below (repeat 0 n) (repeat 0 n).
Proof. induction n; constructor; [lia|assumption]. Qed.
Lemma below_const v m : Forall (fun x => 0 <= x <= m) v -> below v (repeat m (length v)).
Proof. induction v as [|x v IH]; intros H; constructor; inversion H; subst; [assumption|apply IH; assumption]. Qed.
Lemma below_all v w m : below v w -> Forall (fun y => y <= m) w -> Forall (fun x => 0 <= x <= m) v.
Proof. intros H. induction H; intros K; constructor; inversion K; subst; [lia|apply IHForall2; assumption]. Qed.
Lemma below_add_at : forall v w i r s, below v w -> 0 <= r <= s -> below (gadd_at Z.add v i r) (gadd_at Z.add w i s).
Proof. intros v w i r s H. revert i. induction H; intros [|i] K; cbn [gadd_at]; constructor; try lia; auto. apply IHForall2, K. Qed.
Lemma below_len v w : below v w -> length v = length w.
Proof. intros H. induction H; cbn; congruence. Qed.
Lemma below_in i x x' : 0 <= x <= x' -> forall b b' j P P', below b b' -> below P P' ->
  below (fold_left (gp_in Z.add Z.mul i x) (combine (seq j (length b)) b) P) (fold_left (gp_in Z.add Z.mul i x') (combine (seq j (length b')) b') P').
Proof.
  intros HX b b' j P P' H. revert j P P'. induction H as [|y y' b b' HY H IH]; intros j P P' HP; cbn [length seq combine fold_left]; [exact HP|].
  apply IH. unfold gp_in. cbn [fst snd]. apply below_add_at; [exact HP|nia].
Qed.
Lemma below_product a a' b b' : below a a' -> below b b' -> below (zproduct a b) (zproduct a' b').
Proof.
  intros HA HB. unfold gproduct. rewrite (below_len _ _ HA), (below_len _ _ HB).
  assert (A : forall a a', below a a' -> forall i P P', below P P' -> below (fold_left (gp_out Z.add Z.mul b) (combine (seq i (length a')) a) P) (fold_left (gp_out Z.add Z.mul b') (combine (seq i (length a')) a') P')).
  { clear a a' HA. intros a a' HA. induction HA as [|x x' a a' HX HA IH]; intros i P P' HP; cbn [length seq combine fold_left]; [exact HP|].
    apply IH. unfold gp_out. cbn [fst snd]. apply below_in; assumption. }
  apply (A a a' HA 0%nat). apply below_zeros.
Qed.
Lemma below_group lpg X v w : 0 <= X -> below v w -> below (zgroup lpg X v) (zgroup lpg X w).
Proof.
  intros HX H. unfold ggroup. rewrite (below_len _ _ H).
  assert (A : forall v w, below v w -> forall i st st', below (fst st) (fst st') -> 0 <= snd st <= snd st' ->
    below (fst (fold_left (gg_step 1 Z.add Z.mul lpg X) (combine (seq i (length w)) v) st)) (fst (fold_left (gg_step 1 Z.add Z.mul lpg X) (combine (seq i (length w)) w) st'))).
  { clear v w H. intros v w H. induction H as [|x y v w HXY H IH]; intros i st st' H1 H2; cbn [length seq combine fold_left]; [exact H1|].
    apply IH; unfold gg_step; cbn [fst snd]; destruct (Nat.eqb _ _); try apply below_add_at; try assumption; nia. }
  apply (A v w H 0%nat); cbn [fst snd]; [apply below_zeros|lia].
Qed.
Lemma below_sum : forall v v' w w', below v v' -> below w w' -> below (zsum v w) (zsum v' w').
Proof.
  intros v v' w w' H. revert w w'. induction H as [|x x' v v' HX H IH]; intros w w' K; [inversion K; subst; cbn [gsum]; [constructor|exact K]|].
  inversion K; subst; cbn [gsum]; [constructor; assumption|]. constructor; [lia|apply IH; assumption].
Qed.
Lemma zeval_nonneg B v : 0 <= B -> Forall (fun x => 0 <= x) v -> 0 <= zeval B v.
Proof. intros HB H. induction H; cbn [geval]; [lia|nia]. Qed.
(** Non-negative coefficients beyond the size of the value are zero. *)
Lemma zeval_high B : 0 < B -> forall n v, Forall (fun x => 0 <= x) v -> zeval B v < B ^ Z.of_nat n -> Forall (fun x => x = 0) (skipn n v).
Proof.
  intros HB. induction n as [|n IH]; intros v HV H.
  - cbn [skipn]. change (B ^ Z.of_nat 0) with 1 in H. induction HV as [|x v HX HV IHV]; constructor; cbn [geval] in H; pose proof (zeval_nonneg B v ltac:(lia) HV); [nia|apply IHV; nia].
  - destruct v as [|x v]; [constructor|]. inversion HV; subst. cbn [skipn]. apply IH; [assumption|]. cbn [geval] in H.
    rewrite Nat2Z.inj_succ, Z.pow_succ_r in H by lia. assert (B * zeval B v < B * B ^ Z.of_nat n) by lia. nia.
Qed.
Lemma zeval_app B v w : zeval B (v ++ w) = zeval B v + B ^ Z.of_nat (length v) * zeval B w.
Proof. induction v as [|x v IH]; cbn [app geval length]; [rewrite Z.mul_1_l; reflexivity|]. rewrite IH, Nat2Z.inj_succ, Z.pow_succ_r by lia. ring. Qed.
Lemma zeval_all0 B v : Forall (fun x => x = 0) v -> zeval B v = 0.
Proof. intros H. induction H as [|x v -> H IH]; cbn [geval]; [reflexivity|]. rewrite IH. ring. Qed.
Lemma zeval_low B n v : Forall (fun x => x = 0) (skipn n v) -> zeval B (firstn n v) = zeval B v.
Proof. intros H. rewrite <- (firstn_skipn n v) at 2. rewrite zeval_app, (zeval_all0 B _ H). ring. Qed.
Lemma zeval_lt B v : 0 < B -> Forall (fun x => 0 <= x < B) v -> 0 <= zeval B v < B ^ Z.of_nat (length v).
Proof. intros HB H. induction H as [|x v HX H IH]; cbn [geval length]; [change (B ^ Z.of_nat 0) with 1; lia|]. rewrite Nat2Z.inj_succ, Z.pow_succ_r by lia. nia. Qed.
