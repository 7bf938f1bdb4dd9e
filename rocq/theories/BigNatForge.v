(** What an adversary can make the multi-limb gadgets return. *)
From Coq Require Import ZArith List Bool Lia Field.
From Verif Require Import Algebra R1csModel R1csSpec R1csProofs GadgetProofs RangeProofs R1csShape ForgeProofs NovaModel NovaSpec NovaProofs BigNatModel HonestRun LimbVec BigNatProofs BigNatRun.
Import ListNotations.
Local Open Scope fld_scope.

Section Shape1.
Variable F : Fld.
Implicit Types (cs : r1cs F).
(** Where the first gadget runs, the second builds the same system up to values. *)
Definition shape1 {A} (g g' : G F A) : Prop := forall cs cs', same_shape F cs cs' -> forall a d, g cs = Some (a, d) -> exists d', g' cs' = Some (a, d') /\ same_shape F d d'.
Lemma s1_of {A} (g g' : G F A) : shape2 F g g' -> shape1 g g'.
Proof.
  intros H cs cs' S a d E. specialize (H cs cs' S). rewrite E in H. destruct (g' cs') as [[a' d']|]; [|contradiction]. destruct H as [<- D]. exists d'. auto.
Qed.
Lemma s1_bind {A B} (g g' : G F A) (k k' : A -> G F B) : shape1 g g' -> (forall a, shape1 (k a) (k' a)) -> shape1 (bind g k) (bind g' k').
Proof.
  intros H K cs cs' S b d E. unfold bind in *. destruct (g cs) as [[a c]|] eqn:EG; [|discriminate]. destruct (H cs cs' S a c EG) as (c' & E' & S'). rewrite E'. apply (K a c c' S' b d E).
Qed.
Lemma s1_ret {A} (a : A) : shape1 (ret a) (ret a). Proof. apply s1_of, sh_ret. Qed.
(** Reading leaves the system alone. *)
Definition reads {A} (g : G F A) : Prop := forall cs a d, g cs = Some (a, d) -> d = cs.
Lemma s1_skip {A B} (g : G F A) (k : A -> G F B) g' : reads g -> (forall a, shape1 (k a) g') -> shape1 (bind g k) g'.
Proof.
  intros R K cs cs' S b d E. unfold bind in E. destruct (g cs) as [[a c]|] eqn:EG; [|discriminate]. apply R in EG as ->. apply (K a cs cs' S b d E).
Qed.
Lemma s1_value {B} x (k k' : F -> G F B) : (forall v v', shape1 (k v) (k' v')) -> shape1 (bind (value_of x) k) (bind (value_of x) k').
Proof.
  intros K cs cs' S b d E. pose proof (re_shape F cs cs' x S) as H. unfold bind, value_of in *.
  destruct (row_evaluate x (r_x cs) (r_w cs)) as [v|]; [|discriminate]. destruct (row_evaluate x (r_x cs') (r_w cs')) as [v'|]; [|discriminate (proj2 H eq_refl)].
  apply (K v v' cs cs' S b d E).
Qed.
Lemma s1_for {A B} (g g' : A -> G F B) l : (forall a, shape1 (g a) (g' a)) -> shape1 (for_each g l) (for_each g' l).
Proof. intros H. induction l as [|a l IH]; cbn [for_each]; [apply s1_ret|]. apply s1_bind; [apply H|]. intros b. apply s1_bind; [exact IH|]. intros r. apply s1_ret. Qed.
Lemma reads_value x : reads (value_of (F := F) x).
Proof. intros cs a d E. unfold value_of in E. destruct (row_evaluate x (r_x cs) (r_w cs)); [|discriminate]. injection E as _ <-. reflexivity. Qed.
Lemma reads_ret {A} (a : A) : reads (ret a). Proof. intros cs b d E. injection E as _ <-. reflexivity. Qed.
Lemma reads_bind {A B} (g : G F A) (k : A -> G F B) : reads g -> (forall a, reads (k a)) -> reads (bind g k).
Proof. intros H K cs b d E. unfold bind in E. destruct (g cs) as [[a c]|] eqn:EG; [|discriminate]. apply H in EG as ->. apply (K a _ _ _ E). Qed.
Lemma reads_for {A B} (g : A -> G F B) l : (forall a, reads (g a)) -> reads (for_each g l).
Proof. intros H. induction l as [|a l IH]; cbn [for_each]; [apply reads_ret|]. apply reads_bind; [apply H|]. intros b. apply reads_bind; [exact IH|]. intros r. apply reads_ret. Qed.
(** The adversary's run, where the honest one exists. *)
Lemma admits_by1 {A} cs (g : G F A) (R : asg F -> A -> Prop) Q : wf_cs cs -> runs cs g Q ->
  (forall s, satisfies s cs -> exists g' : G F A, shape1 g g' /\ runs (with_values F s cs) g' (fun cs' a => R (own cs') a)) -> admits cs g R.
Proof.
  intros W (a0 & d0 & n0 & E0 & _) H s [S HS]. destruct (H s (conj S HS)) as (g' & SH & (a & d & new & E & Wd & Gr & HN & O)).
  destruct (SH cs (with_values F s cs) (wv_same F s cs) a0 d0 E0) as (d' & E' & SD). rewrite E in E'. injection E' as -> ->.
  assert (AG : forall w, in_range cs w -> own d' w = s w).
  { intros w HW. rewrite (grow_own F _ _ _ _ Gr) by (apply wv_in, HW). apply wv_own, HW. }
  exists a0, d0, (own d'). split; [exact E0|]. split; [|split; [exact AG|exact O]].
  split; [apply own_one, Wd|]. destruct SD as (_ & SA & SB & SC & _). assert (EGs : gates d0 = gates d') by (unfold gates; rewrite SA, SB, SC; reflexivity).
  rewrite EGs, (proj2 (proj2 Gr)). apply Forall_app. split; [|exact HN].
  change (gates (with_values F s cs)) with (gates cs). pose proof (gates_range F cs W) as RG. rewrite Forall_forall in *. intros g0 I0. destruct (RG g0 I0) as (RA & RB & RC).
  assert (EQ : forall r, Forall (in_range cs) (map fst r) -> lc (own d') r = lc s r).
  { intros r Hr. rewrite (grow_lc F _ _ _ _ Gr) by (apply wv_range, Hr). apply wv_lc, Hr. }
  unfold holds. rewrite !EQ by assumption. apply (HS g0 I0).
Qed.
End Shape1.
Arguments shape1 {F A}. Arguments reads {F A}.

Section Forge.
Variable F : pfield.
Variable p : Z.
Hypothesis OK : field_ok F p.
Let CF := fo_cf F p OK.
Notation val := (pf_val F).
Notation of := (pf_of F).
Implicit Types (cs : r1cs F) (x y z : row F).
Add Field bnfofield : (kth F).
Notation to_bits := (fa_to_bits F (pf_bits F) (pf_pow2 F) (pf_modulus F) (pf_nbits F)).
Notation range_check_bits := (fa_range_check_bits F (pf_bits F) (pf_pow2 F)).

Lemma s1_lift {A B} (o : option A) (k : A -> G F B) g' : (forall a, o = Some a -> shape1 (k a) g') -> shape1 (bind (lift F o) k) g'.
Proof. intros K cs cs' S b d E. unfold bind, lift in E. destruct o as [a|]; [|discriminate]. apply (K a eq_refl cs cs' S b d E). Qed.
Lemma s1_guard {B} b (k : unit -> G F B) g' : (b = true -> shape1 (k tt) g') -> shape1 (bind (guard F b) k) g'.
Proof. intros K cs cs' S a d E. destruct b; [apply (K eq_refl cs cs' S a d E)|discriminate]. Qed.
Lemma s1_nat n v : shape1 (nat_witness F n) (fa_witness F v).
Proof. apply s1_lift. intros a _. apply s1_of, sh_fw. Qed.
Lemma reads_bn (a : bignat F) : reads (bn_value F a).
Proof. apply reads_bind; [apply reads_for, reads_value|]. intros vs. apply reads_ret. Qed.

(** Bits that are all zero, whatever the value. *)
Definition zero_bits x : G F (list wire) := to_bits_adv F (pf_bits F) (pf_pow2 F) (pf_modulus F) (pf_nbits F) (repeat false 256) x 256.
Lemma s1_zero x : shape1 (to_bits x 256) (zero_bits x).
Proof. apply s1_of, sh_to_bits. intros v. rewrite repeat_length. apply (cf_len _ _ _ _ _ _ _ CF). Qed.
Lemma run_zero_bits cs x v : wf_cs cs -> carries cs x v -> runs cs (zero_bits x) (fun cs' ws => Forall2 (wcar cs') ws (map (kbit F) (repeat false 256))).
Proof.
  intros W [O _]. eapply runs_weaken; [apply runs_of, (to_bits_adv_ok F val p (pf_bits F) (pf_pow2 F) (pf_modulus F) (pf_nbits F) CF cs x 256 (repeat false 256) W O)|].
  - lia.
  - apply repeat_length.
  - change (256 - 256)%nat with 0%nat. cbn [skipn]. rewrite bval_zeros. pose proof (p_range F p OK). unfold bits_bound. change (Nat.ltb 256 254) with false. cbv iota. lia.
  - intros cs' ws _ _ [[R B] _]. change (256 - 256)%nat with 0%nat in B. change (skipn 0 (repeat false 256)) with (repeat false 256) in B. revert R B. generalize (repeat false 256). intros bs R B. clear - R B. induction B as [|w b ws bs E B IH]; cbn [map]; constructor; inversion R; subst; [split; assumption|apply IH; assumption].
Qed.
Lemma run_zero_range cs ws k : wf_cs cs -> Forall2 (wcar cs) ws (map (kbit F) (repeat false 256)) -> (1 <= k < 254)%nat -> runs cs (range_check_bits ws k) (fun _ _ => True).
Proof.
  intros W H K. apply (run_range F p OK cs ws (repeat false 256) k W H K); [rewrite repeat_length; lia|]. rewrite bval_zeros. apply Z.pow_pos_nonneg; lia.
Qed.
Definition wf_adv (a : bignat F) : G F unit :=
  bind (for_each (fun limb => bind (zero_bits limb) (fun bs => range_check_bits bs (bn_width a))) (bn_limbs a)) (fun _ => ret tt).
Lemma s1_wf (a : bignat F) : shape1 (bn_enforce_well_formed F a) (wf_adv a).
Proof.
  apply s1_bind; [|intros; apply s1_ret]. apply s1_for. intros l. apply s1_bind; [apply s1_zero|]. intros bs. apply s1_of, sh_range.
Qed.
Lemma run_wf_adv cs (a : bignat F) ds : wf_cs cs -> zcars F cs (bn_limbs a) ds -> (1 <= bn_width a < 254)%nat -> runs cs (wf_adv a) (fun _ _ => True).
Proof.
  intros W H K. unfold wf_adv. eapply runs_bind; [|intros; apply runs_ret; auto]. apply (run_for F _ (fun _ _ _ => True)); [auto|exact W|].
  intros l cs' I W' U. assert (HL : exists v, carries cs l v).
  { unfold zcars in H. revert I. induction H as [|? v ? ? H0 H IH]; intros I; [destruct I|]. destruct I as [<-|I]; [exists v; exact H0|apply IH, I]. }
  destruct HL as [v HL]. ups U. eapply runs_bind; [apply (run_zero_bits cs' l v W' HL)|]. intros ws cs2 W2 U2 HW. apply run_zero_range; assumption.
Qed.

(** Witnesses of chosen limbs. *)
Definition limbs_adv (vs : list F) (limb_width n_limbs : nat) : G F (bignat F) :=
  bind (for_each (fa_witness F) vs) (fun limbs => ret (mkBn limbs 0 (2 ^ Z.of_nat limb_width - 1) limb_width n_limbs)).
Lemma nat_to_limbs_len n w k vs : nat_to_limbs F n w k = Some vs -> length vs = k.
Proof.
  unfold nat_to_limbs. destruct (_ <=? _)%Z; [|discriminate]. revert n vs. induction k as [|k IH]; intros n vs E; cbn [limbs_loop] in E; [injection E as <-; reflexivity|].
  destruct (nat_to_f F _); [|discriminate]. destruct (limbs_loop F _ w k) as [l|] eqn:EL; [|discriminate]. injection E as <-. cbn [length]. f_equal. apply (IH _ _ EL).
Qed.
Lemma s1_limbs n w k vs : length vs = k -> shape1 (bn_witness F n w k) (limbs_adv vs w k).
Proof.
  intros L. apply s1_lift. intros us E. apply nat_to_limbs_len in E. apply s1_bind; [|intros; apply s1_ret]. apply s1_of, sh_for2; [congruence|]. intros; apply sh_fw.
Qed.
Lemma run_limbs_adv cs ds w k : wf_cs cs -> runs cs (limbs_adv (map of ds) w k) (fun cs' a => zcars F cs' (bn_limbs a) ds /\ bn_max_word a = (2 ^ Z.of_nat w - 1)%Z /\ bn_width a = w).
Proof.
  intros W. eapply runs_bind; [apply run_witnesses, W|]. intros rs cs1 W1 U1 H. apply runs_ret; [exact W1|]. cbn. auto.
Qed.

(** The carries: the supposed constants are free witnesses. *)
Definition carry_adv (cb : nat) (last : bool) (carry_in x y : row F) (e : Z) : G F (row F * Z) :=
  bind (value_of x) (fun xv => bind (value_of carry_in) (fun cv => bind (value_of y) (fun yv =>
  bind (fa_witness F 0) (fun carry =>
  bind (fa_witness F 0) (fun base =>
  bind (fa_mul F base carry) (fun target =>
  bind (fa_witness F 0) (fun accumulated =>
  bind (fa_witness F (yv - xv - cv)) (fun mw =>
  bind (fa_enforce_eq_constant F (fa_minus F (fa_minus F (fa_plus F (fa_minus F (fa_plus F carry_in x) y) mw) target) accumulated) 0) (fun _ =>
  bind (if last then bind (fa_witness F 0) (fun e => fa_enforce_eq_constant F (fa_minus F carry e) 0)
        else bind (zero_bits carry) (fun bs => range_check_bits bs cb)) (fun _ =>
  ret (carry, e))))))))))).
Lemma s1_carry M B cb last ci x y extra : shape1 (carry_step F M B cb last ci x y extra) (carry_adv cb last ci x y (Z.quot (extra + M) B)).
Proof.
  unfold carry_step, carry_adv. do 3 (apply s1_value; intros ? ?). do 2 (apply s1_bind; [apply s1_nat|]; intros ?). apply s1_bind; [apply s1_of, sh_mul|]. intros ?.
  do 2 (apply s1_bind; [apply s1_nat|]; intros ?). apply s1_bind; [apply s1_of, sh_enforce_c|]. intros ?. apply s1_bind; [|intros; apply s1_ret].
  destruct last; [apply s1_bind; [apply s1_nat|]; intros ?; apply s1_of, sh_enforce_c|]. apply s1_bind; [apply s1_zero|]. intros ?. apply s1_of, sh_range.
Qed.
Lemma run_carry_adv cs cb last ci x y e u v : wf_cs cs -> (1 <= cb < 254)%nat -> carries cs ci 0 -> carries cs x u -> carries cs y v ->
  runs cs (carry_adv cb last ci x y e) (fun cs' st => carries cs' (fst st) 0).
Proof.
  intros W K HC HX HY. unfold carry_adv. eapply run_value; [exact HX|]. eapply run_value; [exact HC|]. eapply run_value; [exact HY|].
  eapply runs_bind; [apply run_witness, W|]. intros carry cs1 W1 U1 H1. ups U1.
  eapply runs_bind; [apply run_witness, W1|]. intros base cs2 W2 U2 H2. ups U2.
  eapply runs_bind; [apply (run_mul F cs2 base carry _ _ W2 H2 H1)|]. intros target cs3 W3 U3 H3. ups U3.
  eapply runs_bind; [apply run_witness, W3|]. intros acc cs4 W4 U4 H4. ups U4.
  eapply runs_bind; [apply run_witness, W4|]. intros mw cs5 W5 U5 H5. ups U5.
  eapply runs_bind; [apply run_enforce_const; [exact W5|]|].
  { eapply car_eq; [apply car_minus; [apply car_minus; [apply car_plus; [apply car_minus; [apply car_plus; [exact HC|exact HX]|exact HY]|exact H5]|exact H3]|exact H4]|]. ring. }
  intros u6 cs6 W6 U6 _. ups U6. eapply runs_bind.
  - instantiate (1 := fun _ _ => True). destruct last.
    + eapply runs_bind; [apply run_witness, W6|]. intros e7 cs7 W7 U7 H7. ups U7. apply run_enforce_const; [exact W7|]. eapply car_eq; [apply car_minus; [exact H1|exact H7]|]. ring.
    + eapply runs_bind; [apply (run_zero_bits cs6 carry _ W6 H1)|]. intros ws cs7 W7 U7 H7. apply run_zero_range; assumption.
  - intros u8 cs8 W8 U8 _. ups U8. apply runs_ret; [exact W8|]. exact H1.
Qed.
Fixpoint loop_adv (M B : Z) (cb : nat) (ci : row F) (extra : Z) (xys : list (row F * row F)) : G F unit :=
  match xys with
  | [] => ret tt
  | (x, y) :: rest => bind (carry_adv cb (match rest with [] => true | _ => false end) ci x y (Z.quot (extra + M) B)) (fun st => loop_adv M B cb (fst st) (snd st) rest)
  end.
Lemma s1_loop M B cb : forall xys ci extra, shape1 (carry_loop F M B cb ci extra xys) (loop_adv M B cb ci extra xys).
Proof.
  induction xys as [|[x y] xys IH]; intros ci extra; cbn [carry_loop loop_adv]; [apply s1_ret|]. apply s1_bind; [apply s1_carry|]. intros st. apply IH.
Qed.
Lemma run_loop_adv M B cb : (1 <= cb < 254)%nat -> forall xys cs ci extra, wf_cs cs -> carries cs ci 0 -> Forall (fun xy => (exists u, carries cs (fst xy) u) /\ exists v, carries cs (snd xy) v) xys ->
  runs cs (loop_adv M B cb ci extra xys) (fun _ _ => True).
Proof.
  intros K. induction xys as [|[x y] xys IH]; intros cs ci extra W HC H; cbn [loop_adv]; [apply runs_ret; auto|].
  inversion H as [|? ? [[u HX] [v HY]] HR]; subst. cbn [fst snd] in *.
  eapply runs_bind; [apply (run_carry_adv cs cb _ ci x y _ u v W K HC HX HY)|]. intros st cs1 W1 U1 H1. apply IH; [exact W1|exact H1|].
  revert HR. apply Forall_impl. intros xy [[u' A] [v' B']]. ups U1. eauto.
Qed.
Definition equal_adv (a b : bignat F) : G F unit :=
  let n := Nat.min (length (bn_limbs a)) (length (bn_limbs b)) in
  let max_word := Z.max (bn_max_word a) (bn_max_word b) in
  bind (loop_adv max_word (2 ^ Z.of_nat (bn_width a)) (carry_bits_of max_word (bn_width a)) (fa_constant F 0) 0 (combine (bn_limbs a) (bn_limbs b))) (fun _ =>
  bind (for_each (fun limb => fa_enforce_eq_constant F limb 0) (skipn n (bn_limbs a))) (fun _ =>
  bind (for_each (fun limb => fa_enforce_eq_constant F limb 0) (skipn n (bn_limbs b))) (fun _ => ret tt))).
Lemma s1_equal (a b : bignat F) : shape1 (bn_equal_when_carried F a b) (equal_adv a b).
Proof.
  apply s1_guard. intros _. cbv zeta. apply s1_bind; [apply s1_loop|]. intros _. do 2 (apply s1_bind; [apply s1_for; intros; apply s1_of, sh_enforce_c|]; intros ?). apply s1_ret.
Qed.
Lemma zcars_ex cs l ns z : zcars F cs l ns -> In z l -> exists w, carries cs z w.
Proof.
  intros C IZ. unfold zcars in C. revert IZ. induction C as [|? ? ? ? H C' IH]; intros IZ; [destruct IZ|]. destruct IZ as [<-|IZ]; [eexists; exact H|apply IH, IZ].
Qed.
Lemma run_equal_adv cs (a b : bignat F) xs ys : wf_cs cs -> zcars F cs (bn_limbs a) xs -> zcars F cs (bn_limbs b) ys ->
  (1 <= carry_bits_of (Z.max (bn_max_word a) (bn_max_word b)) (bn_width a) < 254)%nat ->
  Forall (fun d => d = 0%Z) (skipn (Nat.min (length xs) (length ys)) xs) -> Forall (fun d => d = 0%Z) (skipn (Nat.min (length xs) (length ys)) ys) ->
  runs cs (equal_adv a b) (fun _ _ => True).
Proof.
  intros W HA HB K ZA ZB. unfold equal_adv. cbv zeta. rewrite (zcars_len F _ _ _ HA), (zcars_len F _ _ _ HB).
  eapply runs_bind; [apply run_loop_adv; [exact K|exact W|apply car_const, W|]|].
  - apply Forall_forall. intros [x y] I. cbn [fst snd]. split; [apply (zcars_ex _ _ _ _ HA (in_combine_l _ _ _ _ I))|apply (zcars_ex _ _ _ _ HB (in_combine_r _ _ _ _ I))].
  - intros _ cs1 W1 U1 _. apply (cars_up F _ _ _ _ U1) in HA. apply (cars_up F _ _ _ _ U1) in HB.
    eapply runs_bind; [apply (run_zeros F p OK cs1 _ _ W1 (zcars_skipn F _ _ _ _ HA) ZA)|]. intros _ cs2 W2 U2 _. apply (cars_up F _ _ _ _ U2) in HB.
    eapply runs_bind; [apply (run_zeros F p OK cs2 _ _ W2 (zcars_skipn F _ _ _ _ HB) ZB)|]. intros _ cs3 W3 U3 _. apply runs_ret; auto.
Qed.

Lemma sh_products a b : shape2 F (poly_products F a b) (poly_products F a b).
Proof.
  apply sh_fold. intros P [i x]. apply sh_fold. intros P' [j y]. apply sh_bind; [apply sh_mul|]. intros m. apply sh_ret.
Qed.
Lemma sh_eval l (x : F) : shape2 F (poly_eval F l x) (poly_eval F l x).
Proof. apply sh_bind; [|intros; apply sh_ret]. apply sh_fold. intros [acc i] c. apply sh_bind; [apply sh_mul|]. intros m. apply sh_ret. Qed.
Lemma sh_checks a b P : forall n (x : F), shape2 F (poly_checks F a b P x n) (poly_checks F a b P x n).
Proof.
  induction n as [|n IH]; intros x; cbn [poly_checks]; [apply sh_ret|]. cbv zeta. do 3 (apply sh_bind; [apply sh_eval|]; intros ?). apply sh_bind; [apply sh_mul|]. intros ?.
  apply sh_bind; [apply sh_enforce|]. intros _. apply IH.
Qed.
Lemma sh_guard b : shape2 F (guard F b) (guard F b). Proof. destruct b; [apply sh_ret|apply sh_panic]. Qed.
Lemma sh_poly_mul a b : shape2 F (poly_mul F a b) (poly_mul F a b).
Proof.
  apply sh_bind; [apply sh_guard|]. intros _. apply sh_bind; [apply sh_products|]. intros P. apply sh_bind; [apply sh_checks|]. intros _. apply sh_ret.
Qed.
Lemma sh_group (a : bignat F) lpg : shape2 F (bn_group_limbs F a lpg) (bn_group_limbs F a lpg).
Proof.
  apply sh_bind; [apply sh_guard|]. intros _. cbv zeta. apply sh_bind; [apply sh_fw|]. intros lb. apply sh_bind; [|intros; apply sh_ret].
  apply sh_fold. intros [l sh] [i x]. unfold group_step. cbv zeta. do 2 (apply sh_bind; [apply sh_mul|]; intros ?). apply sh_ret.
Qed.
Lemma sh_recompose (q m r : bignat F) w : shape2 F (bn_recompose F q m r w) (bn_recompose F q m r w).
Proof. apply sh_bind; [apply sh_poly_mul|]. intros P. cbv zeta. apply sh_ret. Qed.

Definition regroup_adv (a b : bignat F) : G F unit :=
  let max_word := Z.max (bn_max_word a) (bn_max_word b) in
  let carry_bits := carry_bits_of max_word (bn_width a) in
  let lpg := ((pf_nbits F - 1 - carry_bits) / bn_width a)%nat in
  bind (bn_group_limbs F a lpg) (fun ag => bind (bn_group_limbs F b lpg) (fun bg => equal_adv ag bg)).
Lemma s1_regroup (a b : bignat F) : shape1 (bn_equal_regroup F a b) (regroup_adv a b).
Proof.
  unfold bn_equal_regroup, regroup_adv. cbv zeta. apply s1_guard. intros _. apply s1_guard. intros _. do 2 (apply s1_bind; [apply s1_of, sh_group|]; intros ?). apply s1_equal.
Qed.
Definition div_adv (ts : list Z) (ql : nat) : G F (bignat F * bignat F) :=
  bind (limbs_adv (map of (repeat 0%Z ql)) 64 ql) (fun q => bind (wf_adv q) (fun _ =>
  bind (limbs_adv (map of ts) 64 4) (fun r => bind (wf_adv r) (fun _ => ret (q, r))))).
Lemma s1_div num nb (m : bignat F) ts : reads num -> bn_min_bits m = 0%nat -> length (bn_limbs m) = 4%nat -> length ts = 4%nat -> shape1 (bn_div_witness F num nb 64 m) (div_adv ts ((nb - 0 - 1) / 64 + 1)).
Proof.
  intros R E0 E1 E2. unfold bn_div_witness, div_adv. apply s1_guard. intros _. cbv zeta. rewrite E0, E1. apply s1_skip; [exact R|]. intros n. apply s1_skip; [apply reads_bn|]. intros m0. apply s1_guard. intros _.
  apply s1_bind; [apply s1_limbs; rewrite map_length, repeat_length; reflexivity|]. intros q. apply s1_bind; [apply s1_wf|]. intros _.
  apply s1_skip; [exact R|]. intros n'. apply s1_skip; [apply reads_bn|]. intros m1.
  apply s1_bind; [apply s1_limbs; rewrite map_length; exact E2|]. intros r. apply s1_bind; [apply s1_wf|]. intros _. apply s1_ret.
Qed.
Lemma run_div_adv cs ts ql : wf_cs cs ->
  runs cs (div_adv ts ql) (fun cs' qr => zcars F cs' (bn_limbs (fst qr)) (repeat 0%Z ql) /\ zcars F cs' (bn_limbs (snd qr)) ts /\ bn_max_word (fst qr) = (2 ^ 64 - 1)%Z /\ bn_max_word (snd qr) = (2 ^ 64 - 1)%Z).
Proof.
  intros W. unfold div_adv. eapply runs_bind; [apply (run_limbs_adv cs _ _ _ W)|]. intros q cs1 W1 U1 (H1 & X1 & D1).
  eapply runs_bind; [apply (run_wf_adv cs1 q _ W1 H1); rewrite D1; lia|]. intros u2 cs2 W2 U2 _. apply (cars_up F _ _ _ _ U2) in H1.
  eapply runs_bind; [apply (run_limbs_adv cs2 _ _ _ W2)|]. intros r cs3 W3 U3 (H3 & X3 & D3). apply (cars_up F _ _ _ _ U3) in H1.
  eapply runs_bind; [apply (run_wf_adv cs3 r _ W3 H3); rewrite D3; lia|]. intros u4 cs4 W4 U4 _. apply (cars_up F _ _ _ _ U4) in H1. apply (cars_up F _ _ _ _ U4) in H3.
  apply runs_ret; [exact W4|]. cbn [fst snd]. auto.
Qed.
Lemma Forall_max l : Forall (fun d => (0 <= d)%Z) l -> exists T, Forall (fun d => (0 <= d <= T)%Z) l.
Proof.
  intros H. induction H as [|d l H HL [T IH]]; [exists 0%Z; constructor|]. exists (Z.max d T). constructor; [lia|]. revert IH. apply Forall_impl. intros; lia.
Qed.
(** With a zero quotient the right-hand side is the chosen remainder. *)
Lemma skip_zero (T : Z) ql ms ts : (ql = 4 \/ ql = 5 \/ ql = 8)%nat -> length ms = 4%nat -> length ts = 4%nat -> Forall (fun d => 0 <= d <= T)%Z ms -> Forall (fun d => 0 <= d <= T)%Z ts ->
  forall k, (2 <= k)%nat -> Forall (fun d => d = 0%Z) (skipn k (zgroup 2 (2 ^ 64)%Z (zsum (zproduct (repeat 0%Z ql) ms) ts))).
Proof.
  intros HQ LM LT HM HT k HK. apply below_const in HM, HT. rewrite LM in HM. rewrite LT in HT.
  assert (BL := below_group 2 (2 ^ 64)%Z _ _ ltac:(lia) (below_sum _ _ _ _ (below_product _ _ _ _ (below_zeros ql) HM) HT)).
  assert (Z0 : exists u v rest, zgroup 2 (2 ^ 64)%Z (zsum (zproduct (repeat 0%Z ql) (repeat T 4)) (repeat T 4)) = u :: v :: rest /\ Forall (fun d => d = 0%Z) rest).
  { destruct HQ as [-> | [-> | ->]]; (do 3 eexists; split; [vm_compute; reflexivity|]; repeat (apply Forall_cons; [reflexivity|]); apply Forall_nil). }
  destruct Z0 as (u & v & rest & E & HR). rewrite E in BL. clear E. destruct k as [|[|k]]; try lia.
  revert BL. generalize (zgroup 2 (2 ^ 64)%Z (zsum (zproduct (repeat 0%Z ql) ms) ts)). intros L BL.
  destruct L as [|x [|y L]]; [inversion BL|inversion BL as [|? ? ? ? _ BL1]; inversion BL1|]. inversion BL as [|? ? ? ? _ BL1]; subst. inversion BL1 as [|? ? ? ? _ BL2]; subst. cbn [skipn].
  assert (HZ : Forall (fun d => d = 0%Z) L) by (clear - BL2 HR; induction BL2 as [|? ? ? ? H B IH]; constructor; inversion HR; subst; [lia|apply IH; assumption]).
  clear - HZ. revert k. induction HZ; intros [|k]; cbn [skipn]; try constructor; auto.
Qed.
Lemma run_forged cs (a m : bignat F) (q r : bignat F) xs ms ts ql : wf_cs cs -> zcars F cs (bn_limbs a) xs -> zcars F cs (bn_limbs m) ms -> zcars F cs (bn_limbs q) (repeat 0%Z ql) -> zcars F cs (bn_limbs r) ts ->
  bn_width a = 64%nat -> Z.max (bn_max_word a) M0 = M0 -> bn_max_word q = (2 ^ 64 - 1)%Z -> bn_max_word r = (2 ^ 64 - 1)%Z -> bn_max_word m = (2 ^ 64 - 1)%Z ->
  (ql = 4 \/ ql = 5 \/ ql = 8)%nat -> length ms = 4%nat -> length ts = 4%nat -> (4 <= length xs < ql + 4)%nat -> Forall (fun d => (0 <= d)%Z) ms -> Forall (fun d => (0 <= d)%Z) ts ->
  runs cs (bind (bn_recompose F q m r 64) (fun right => bind (regroup_adv a right) (fun _ => ret r))) (fun cs' r' => zcars F cs' (bn_limbs r') ts).
Proof.
  intros W HA HM HQ HR WA XA XQ XR XM HL LM LT LX PM PT. unfold bn_recompose.
  eapply runs_bind.
  { eapply runs_bind; [apply (run_poly_mul F p OK cs _ _ _ _ W HQ HM); rewrite repeat_length; lia|]. intros P cs1 W1 U1 HP. cbv zeta. apply (cars_up F _ _ _ _ U1) in HR.
    apply runs_ret; [exact W1|]. instantiate (1 := fun cs' b => zcars F cs' (bn_limbs b) (zsum (zproduct (repeat 0%Z ql) ms) ts) /\ bn_width b = 64%nat /\ bn_max_word b = M0).
    cbn [bn_from_poly bn_limbs bn_width bn_max_word]. split; [eapply (zcars_plus F p OK); [exact HP|exact HR|reflexivity|exact W1]|]. split; [reflexivity|].
    rewrite (zcars_len F _ _ _ HQ), (zcars_len F _ _ _ HM), XQ, XM, XR, LM, repeat_length. unfold M0. destruct HL as [-> | [-> | ->]]; reflexivity. }
  intros right cs1 W1 U1 (HY & WY & XY). cbv beta in *. apply (cars_up F _ _ _ _ U1) in HA. apply (cars_up F _ _ _ _ U1) in HR.
  unfold regroup_adv. rewrite XY, XA, WA. cbv zeta. replace (carry_bits_of M0 64) with 67%nat by (vm_compute; reflexivity). rewrite (cf_nbits _ _ _ _ _ _ _ CF).
  change ((254 - 1 - 67) / 64)%nat with 2%nat.
  assert (LY : length (zsum (zproduct (repeat 0%Z ql) ms) ts) = (ql + 3)%nat) by (rewrite gsum_len, gproduct_len, repeat_length; lia).
  eapply runs_bind; [|intros u9 cs9 W9 U9 _; apply runs_ret; [exact W9|apply (cars_up F _ _ _ _ U9 HR)]].
  eapply runs_bind; [apply (run_group F p OK cs1 a xs 2 W1 HA); [lia|lia|rewrite WA; lia]|]. intros ag cs2 W2 U2 (GA & DA & EA). apply (cars_up F _ _ _ _ U2) in HY. rewrite WA in *.
  eapply runs_bind; [apply (run_group F p OK cs2 right _ 2 W2 HY); [lia|lia|rewrite WY; lia]|]. intros bg cs3 W3 U3 (GB & DB & EB). apply (cars_up F _ _ _ _ U3) in GA. rewrite WY in *.
  change (64 * 2)%nat with 128%nat in *. change (2 ^ Z.of_nat 64)%Z with (2 ^ 64)%Z in *.
  eapply (run_equal_adv cs3 ag bg _ _ W3 GA GB).
  - rewrite EA, EB, DA, XY, Z.mul_max_distr_nonneg_l, XA by (vm_compute; discriminate). vm_compute. lia.
  - rewrite !ggroup_len, LY. rewrite skipn_all2; [constructor|]. rewrite ggroup_len. apply Nat.min_case_strong; intros _; [lia|]. apply Nat.add_le_mono_r, Nat.div_le_mono; lia.
  - rewrite !ggroup_len, LY.
    destruct (Forall_max ms PM) as [T1 H1]. destruct (Forall_max ts PT) as [T2 H2].
    apply (skip_zero (Z.max T1 T2) ql ms ts HL LM LT).
    + revert H1. apply Forall_impl. intros; lia.
    + revert H2. apply Forall_impl. intros; lia.
    + apply Nat.min_glb; (change 2%nat with ((4 - 1) / 2 + 1)%nat; apply Nat.add_le_mono_r, Nat.div_le_mono; lia).
Qed.
End Forge.
