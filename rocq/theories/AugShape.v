(** The gates of the augmented circuit, and the wires it returns, do not depend on the values it runs
    on; before its last two lines it allocates no public input. *)
From Coq Require Import ZArith List Bool Lia.
From Verif Require Import Algebra GroupLib R1csModel R1csSpec R1csProofs R1csShape NovaModel BigNatModel AugmentedModel.
Import ListNotations.
Local Open Scope fld_scope.

Section Uni.
Variable F : Fld.
Implicit Types (cs : r1cs F) (x y z : row F).
(** If both run on systems of one shape, then they leave systems of one shape, the same results and no new public input. *)
Definition uni {A} (g g' : G F A) : Prop := forall cs cs', same_shape F cs cs' -> forall a d a' d', g cs = Some (a, d) -> g' cs' = Some (a', d') ->
  a = a' /\ same_shape F d d' /\ r_x d = r_x cs /\ r_x d' = r_x cs'.
Lemma u_ret {A} (a : A) : uni (ret a) (ret a).
Proof. intros cs cs' H b d b' d' E E'. injection E as <- <-. injection E' as <- <-. auto. Qed.
Lemma u_panic {A} (g : G F A) : uni panic g. Proof. intros cs cs' H b d b' d' E. discriminate E. Qed.
Lemma u_panic' {A} (g : G F A) : uni g panic. Proof. intros cs cs' H b d b' d' _ E. discriminate E. Qed.
Lemma u_bind {A B} (g g' : G F A) (k k' : A -> G F B) : uni g g' -> (forall a, uni (k a) (k' a)) -> uni (bind g k) (bind g' k').
Proof.
  intros H K cs cs' S b d b' d' E E'. unfold bind in E, E'. destruct (g cs) as [[a e]|] eqn:EG; [|discriminate]. destruct (g' cs') as [[a' e']|] eqn:EG'; [|discriminate].
  destruct (H cs cs' S _ _ _ _ EG EG') as (<- & S1 & X1 & X1'). destruct (K a e e' S1 _ _ _ _ E E') as (-> & S2 & X2 & X2'). split; [reflexivity|]. split; [exact S2|]. split; congruence.
Qed.
(** Steps that read values: the continuations agree whatever is read. *)
Definition looks {A} (g : G F A) : Prop := forall cs a d, g cs = Some (a, d) -> d = cs.
Lemma u_look {A A' B} (g : G F A) (g' : G F A') (k : A -> G F B) (k' : A' -> G F B) : looks g -> looks g' ->
  (forall a a', uni (k a) (k' a')) -> uni (bind g k) (bind g' k').
Proof.
  intros L L' K cs cs' S b d b' d' E E'. unfold bind in E, E'. destruct (g cs) as [[a e]|] eqn:EG; [|discriminate]. destruct (g' cs') as [[a' e']|] eqn:EG'; [|discriminate].
  apply L in EG. apply L' in EG'. subst. apply (K a a' cs cs' S _ _ _ _ E E').
Qed.
Lemma k_value x : looks (value_of x). Proof. intros cs a d E. unfold value_of in E. destruct (row_evaluate _ _ _); [|discriminate]. injection E as _ <-. reflexivity. Qed.
Lemma k_wire w : looks (wire_of (F := F) w). Proof. intros cs a d E. unfold wire_of in E. destruct (wire_value _ _ _); [|discriminate]. injection E as _ <-. reflexivity. Qed.
Lemma k_ret {A} (a : A) : looks (ret a). Proof. intros cs b d E. injection E as _ <-. reflexivity. Qed.
Lemma k_bind {A B} (g : G F A) (k : A -> G F B) : looks g -> (forall a, looks (k a)) -> looks (bind g k).
Proof. intros H K cs b d E. unfold bind in E. destruct (g cs) as [[a e]|] eqn:EG; [|discriminate]. apply H in EG. subst e. apply (K a _ _ _ E). Qed.
Lemma k_for {A B} (g : A -> G F B) l : (forall a, looks (g a)) -> looks (for_each g l).
Proof. intros H. induction l as [|a l IH]; cbn [for_each]; [apply k_ret|]. apply k_bind; [apply H|]. intros b. apply k_bind; [exact IH|]. intros r. apply k_ret. Qed.
Lemma u_value {B} x (k k' : F -> G F B) : (forall v v', uni (k v) (k' v')) -> uni (bind (value_of x) k) (bind (value_of x) k').
Proof. apply u_look; apply k_value. Qed.
Lemma u_wire {B} w (k k' : F -> G F B) : (forall v v', uni (k v) (k' v')) -> uni (bind (wire_of w) k) (bind (wire_of w) k').
Proof. apply u_look; apply k_wire. Qed.
Lemma u_gate x y z : uni (gate (mul_gate F x y z)) (gate (mul_gate F x y z)).
Proof.
  intros cs cs' S a d a' d' E E'. destruct a, a'. split; [reflexivity|]. pose proof (sh_gate F x y z cs cs' S) as H. rewrite E, E' in H. split; [apply H|].
  injection E as <-. injection E' as <-. split; reflexivity.
Qed.
Lemma u_new_w v v' : uni (new_w F v) (new_w F v').
Proof.
  intros cs cs' S a d a' d' E E'. pose proof (sh_new_w F v v' cs cs' S) as H. rewrite E, E' in H. destruct H as [-> H]. split; [reflexivity|]. split; [exact H|].
  injection E as _ <-. injection E' as _ <-. split; reflexivity.
Qed.
Lemma u_for2 {A B} (g g' : A -> G F B) : forall l l', length l = length l' -> (forall a a', uni (g a) (g' a')) -> uni (for_each g l) (for_each g' l').
Proof.
  induction l as [|a l IH]; intros [|a' l'] L H; try discriminate; cbn [for_each]; [apply u_ret|]. apply u_bind; [apply H|]. intros b.
  apply u_bind; [apply IH; [cbn in L; congruence|exact H]|]. intros r. apply u_ret.
Qed.
Lemma u_for {A B} (g g' : A -> G F B) l : (forall a, uni (g a) (g' a)) -> uni (for_each g l) (for_each g' l).
Proof. intros H. induction l as [|a l IH]; cbn [for_each]; [apply u_ret|]. apply u_bind; [apply H|]. intros b. apply u_bind; [exact IH|]. intros r. apply u_ret. Qed.
Lemma u_fold {A B} (g g' : B -> A -> G F B) : (forall b a, uni (g b a) (g' b a)) -> forall l b, uni (fold_g g b l) (fold_g g' b l).
Proof. intros H. induction l as [|a l IH]; intros b; cbn [fold_g]; [apply u_ret|]. apply u_bind; [apply H|]. intros c. apply IH. Qed.

Ltac un := repeat first
  [ apply u_ret | apply u_panic | apply u_panic' | apply u_gate | apply u_new_w
  | apply u_value; intros ? ? | apply u_wire; intros ? ?
  | apply u_bind; [|intros ?] ].
Lemma u_fw v v' : uni (fa_witness F v) (fa_witness F v'). Proof. unfold fa_witness. un. Qed.
Lemma u_mul x y : uni (fa_mul F x y) (fa_mul F x y).
Proof. unfold fa_mul. destruct (as_constant F x); [un|]. destruct (as_constant F y); [un|]. apply u_value. intros ? ?. apply u_value. intros ? ?. apply u_bind; [apply u_fw|]. intros z. un. Qed.
Lemma u_enforce x y : uni (fa_enforce_eq F x y) (fa_enforce_eq F x y). Proof. apply u_gate. Qed.
Lemma u_enforce_c x c : uni (fa_enforce_eq_constant F x c) (fa_enforce_eq_constant F x c). Proof. apply u_gate. Qed.
Lemma u_not w : uni (bin_not F w) (bin_not F w). Proof. unfold bin_not. un. Qed.
Lemma u_select a b c : uni (fa_conditional_select F a b c) (fa_conditional_select F a b c).
Proof. unfold fa_conditional_select. do 2 (apply u_bind; [apply u_mul|]; intros ?). un. Qed.
Lemma u_cond x y c : uni (fa_conditional_enforce_equal F x y c) (fa_conditional_enforce_equal F x y c).
Proof. unfold fa_conditional_enforce_equal. apply u_bind; [apply u_mul|]. intros m. apply u_enforce_c. Qed.
Lemma u_is_neq x y : uni (fa_is_neq F x y) (fa_is_neq F x y).
Proof.
  unfold fa_is_neq. apply u_value. intros u u'. apply u_value. intros v v'. apply u_bind; [apply u_new_w|]. intros out. apply u_bind.
  { destruct (keqb u v), (keqb u' v'); try apply u_fw; unfold kinvert; repeat (match goal with |- context [kis0 ?t] => destruct (kis0 t) end); try apply u_panic; try apply u_panic'; apply u_fw. }
  intros mul. apply u_bind; [apply u_mul|]. intros m. apply u_bind; [apply u_enforce|]. intros _.
  apply u_bind; [apply u_not|]. intros nout. apply u_bind; [apply u_mul|]. intros m'. apply u_bind; [apply u_enforce|]. intros _. apply u_ret.
Qed.
Lemma u_is_eq x y : uni (fa_is_eq F x y) (fa_is_eq F x y).
Proof. unfold fa_is_eq. apply u_bind; [apply u_is_neq|]. intros n. apply u_not. Qed.
Lemma u_products : forall acs p l, uni (rc_products F p l acs) (rc_products F p l acs).
Proof. induction acs as [|[a c] acs IH]; intros p l; cbn [rc_products]; [apply u_ret|]. destruct c; [|apply IH]. apply u_bind; [apply u_mul|]. intros n. apply IH. Qed.
Lemma u_bools : forall acs i p, uni (rc_bools F i p acs) (rc_bools F i p acs).
Proof.
  induction acs as [|[a c] acs IH]; intros i p; cbn [rc_bools]; [apply u_ret|]. apply u_bind; [|intros _; apply IH]. destruct c.
  - apply u_bind; [apply u_mul|]. intros b. apply u_enforce.
  - destruct i as [|j]; [apply u_panic|]. destruct (nth_error p j); [|apply u_panic]. apply u_bind; [apply u_mul|]. intros b. apply u_enforce.
Qed.
Lemma u_range bits ws c : uni (fa_range_check F bits ws c) (fa_range_check F bits ws c).
Proof.
  unfold fa_range_check. destruct (Nat.ltb _ _); [apply u_ret|]. apply u_bind; [apply u_for; intros w; apply u_enforce_c|]. intros _.
  destruct (skipn _ ws) as [|a0 l]; [apply u_panic|]. cbv zeta. apply u_bind; [apply u_products|]. intros p. apply u_bools.
Qed.
Lemma u_to_bits bits pow2 modulus nbits x n : (forall v v', length (bits v) = length (bits v')) ->
  uni (fa_to_bits F bits pow2 modulus nbits x n) (fa_to_bits F bits pow2 modulus nbits x n).
Proof.
  intros L. unfold fa_to_bits. destruct (Nat.ltb 256 n); [apply u_panic|]. apply u_value. intros v v'.
  apply u_bind; [apply u_for2; [apply L|]; intros a a'; apply u_new_w|]. intros bs. cbv zeta.
  apply u_bind; [destruct (Nat.ltb n nbits); apply u_range|]. intros _. apply u_ret.
Qed.
Lemma u_bits_sum ws : uni (fa_bits_sum F ws) (fa_bits_sum F ws).
Proof. apply u_bind; [|intros; apply u_ret]. apply u_fold. intros [acc f] b. apply u_bind; [apply u_mul|]. intros t. apply u_ret. Qed.
Lemma u_bits x ws : uni (fa_enforce_eq_bits F x ws) (fa_enforce_eq_bits F x ws).
Proof. apply u_bind; [apply u_bits_sum|]. intros s. apply u_enforce. Qed.
Lemma u_sel_id p w : uni (pa_select_identity F p w) (pa_select_identity F p w).
Proof. unfold pa_select_identity. do 3 (apply u_bind; [apply u_mul|]; intros ?). apply u_ret. Qed.
Lemma u_descale p : uni (pa_descale F p) (pa_descale F p).
Proof.
  unfold pa_descale. apply u_bind; [apply u_is_neq|]. intros t. apply u_value. intros v v'. apply u_bind; [apply u_fw|]. intros i.
  apply u_bind; [apply u_mul|]. intros x. apply u_bind; [apply u_mul|]. intros y. apply u_sel_id.
Qed.
Lemma u_pa_add b3 p q : uni (pa_add F b3 p q) (pa_add F b3 p q).
Proof. unfold pa_add. cbv zeta. do 14 (apply u_bind; [apply u_mul|]; intros ?). apply u_ret. Qed.
Lemma u_pa_double b3 p : uni (pa_double F b3 p) (pa_double F b3 p).
Proof. unfold pa_double. cbv zeta. do 9 (apply u_bind; [apply u_mul|]; intros ?). apply u_ret. Qed.
Lemma u_scalar b3 bits pow2 modulus nbits p x : (forall v v', length (bits v) = length (bits v')) ->
  uni (pa_scalar_point F b3 bits pow2 modulus nbits p x) (pa_scalar_point F b3 bits pow2 modulus nbits p x).
Proof.
  intros L. unfold pa_scalar_point. apply u_bind; [apply u_to_bits, L|]. intros bs. apply u_fold. intros b a.
  apply u_bind; [apply u_pa_double|]. intros r. apply u_bind; [apply u_sel_id|]. intros q. apply u_pa_add.
Qed.
Lemma u_pa_select a b c : uni (pa_conditional_select F a b c) (pa_conditional_select F a b c).
Proof. unfold pa_conditional_select. do 3 (apply u_bind; [apply u_select|]; intros ?). apply u_ret. Qed.
Lemma u_pa_witness (x y : F) i (x' y' : F) i' : uni (pa_witness F x y i) (pa_witness F x' y' i').
Proof. unfold pa_witness. do 3 (apply u_bind; [apply u_fw|]; intros ?). apply u_ret. Qed.
End Uni.
Arguments uni {F A}. Arguments looks {F A}.

Section BigNat.
Variable F : pfield.
Hypothesis L : forall v v', length (pf_bits F v) = length (pf_bits F v').
Notation to_bits := (fa_to_bits F (pf_bits F) (pf_pow2 F) (pf_modulus F) (pf_nbits F)).
Lemma u_lift {A B} (o o' : option A) (k k' : A -> G F B) : (forall a a', o = Some a -> o' = Some a' -> uni (k a) (k' a')) -> uni (bind (lift F o) k) (bind (lift F o') k').
Proof.
  intros H. destruct o as [a|]; [|intros cs cs' S ? ? ? ? E; discriminate E]. destruct o' as [a'|]; [|intros cs cs' S ? ? ? ? _ E; discriminate E]. exact (H a a' eq_refl eq_refl).
Qed.
Lemma k_lift {A} (o : option A) : looks (lift F o). Proof. intros cs a d E. destruct o; [|discriminate E]. injection E as _ <-. reflexivity. Qed.
Lemma k_guard b : looks (guard F b). Proof. destruct b; [apply k_ret|]. intros cs a d E. discriminate E. Qed.
Lemma u_guard {B} b b' (k k' : unit -> G F B) : uni (k tt) (k' tt) -> uni (bind (guard F b) k) (bind (guard F b') k').
Proof. intros H. apply u_look; [apply k_guard|apply k_guard|]. intros [] []. exact H. Qed.
Lemma u_nat n n' : uni (nat_witness F n) (nat_witness F n'). Proof. apply u_lift. intros a a' _ _. apply u_fw. Qed.
Lemma limbs_loop_len : forall k n w vs, limbs_loop F n w k = Some vs -> length vs = k.
Proof.
  induction k as [|k IH]; intros n w vs E; cbn [limbs_loop] in E; [injection E as <-; reflexivity|].
  destruct (nat_to_f _ _); [|discriminate]. destruct (limbs_loop F (Z.shiftr n _) w k) eqn:E1; [|discriminate]. injection E as <-. cbn. apply (f_equal S), (IH _ _ _ E1).
Qed.
Lemma u_bn_witness n n' w k : uni (bn_witness F n w k) (bn_witness F n' w k).
Proof.
  apply u_lift. intros a a' E E'. unfold nat_to_limbs in E, E'. destruct (_ <=? _)%Z; [|discriminate]. destruct (bit_count n' <=? _)%Z; [|discriminate].
  apply limbs_loop_len in E, E'. apply u_bind; [apply u_for2; [congruence|]; intros; apply u_fw|]. intros. apply u_ret.
Qed.
Lemma u_decompose a : uni (bn_decompose F a) (bn_decompose F a).
Proof. apply u_bind; [|intros; apply u_ret]. apply u_for. intros x. apply u_to_bits, L. Qed.
Lemma u_from_field f w k : uni (bn_from_field F f w k) (bn_from_field F f w k).
Proof.
  apply u_value. intros v v'. apply u_bind; [apply u_bn_witness|]. intros a. apply u_bind; [apply u_decompose|]. intros bv. apply u_bind; [apply u_bits|]. intros _. apply u_ret.
Qed.
Lemma u_wf a : uni (bn_enforce_well_formed F a) (bn_enforce_well_formed F a).
Proof. apply u_bind; [|intros; apply u_ret]. apply u_for. intros x. apply u_bind; [apply u_to_bits, L|]. intros bs. apply u_range. Qed.
Lemma k_bn a : looks (bn_value F a).
Proof. apply k_bind; [|intros; apply k_ret]. apply k_for. intros; apply k_value. Qed.
Lemma u_bn_select a b c : uni (bn_conditional_select F a b c) (bn_conditional_select F a b c).
Proof. apply u_guard. apply u_bind; [|intros; apply u_ret]. apply u_for. intros [x y]. apply u_select. Qed.
Lemma u_carry M tb cb last ci x y e : uni (carry_step F M tb cb last ci x y e) (carry_step F M tb cb last ci x y e).
Proof.
  unfold carry_step. do 3 (apply u_value; intros ? ?). apply u_bind; [apply u_nat|]. intros carry. cbv zeta. apply u_bind; [apply u_nat|]. intros base.
  apply u_bind; [apply u_mul|]. intros t. do 2 (apply u_bind; [apply u_nat|]; intros ?). apply u_bind; [apply u_enforce_c|]. intros _.
  apply u_bind; [|intros _; apply u_ret]. destruct last.
  - apply u_bind; [apply u_nat|]. intros. apply u_enforce_c.
  - apply u_bind; [apply u_to_bits, L|]. intros. apply u_range.
Qed.
Lemma u_loop M tb cb : forall xys ci e, uni (carry_loop F M tb cb ci e xys) (carry_loop F M tb cb ci e xys).
Proof. induction xys as [|[x y] l IH]; intros ci e; cbn [carry_loop]; [apply u_ret|]. apply u_bind; [apply u_carry|]. intros st. apply IH. Qed.
Lemma u_equal a b : uni (bn_equal_when_carried F a b) (bn_equal_when_carried F a b).
Proof.
  apply u_guard. cbv zeta. apply u_bind; [apply u_loop|]. intros _. apply u_bind; [apply u_for; intros; apply u_enforce_c|]. intros _.
  apply u_bind; [apply u_for; intros; apply u_enforce_c|]. intros _. apply u_ret.
Qed.
Lemma u_group a lpg : uni (bn_group_limbs F a lpg) (bn_group_limbs F a lpg).
Proof.
  apply u_guard. cbv zeta. apply u_bind; [apply u_fw|]. intros lb. apply u_bind; [|intros; apply u_ret].
  apply u_fold. intros [l sh] [i x]. unfold group_step. cbv zeta. do 2 (apply u_bind; [apply u_mul|]; intros ?). apply u_ret.
Qed.
Lemma u_regroup a b : uni (bn_equal_regroup F a b) (bn_equal_regroup F a b).
Proof. apply u_guard. cbv zeta. apply u_guard. do 2 (apply u_bind; [apply u_group|]; intros ?). apply u_equal. Qed.
Lemma u_poly_eval l (x : F) : uni (poly_eval F l x) (poly_eval F l x).
Proof. apply u_bind; [|intros; apply u_ret]. apply u_fold. intros [acc i] c. apply u_bind; [apply u_mul|]. intros m. apply u_ret. Qed.
Lemma u_checks a b P : forall n (x : F), uni (poly_checks F a b P x n) (poly_checks F a b P x n).
Proof.
  induction n as [|n IH]; intros x; cbn [poly_checks]; [apply u_ret|]. cbv zeta. do 3 (apply u_bind; [apply u_poly_eval|]; intros ?). apply u_bind; [apply u_mul|]. intros ?.
  apply u_bind; [apply u_enforce|]. intros _. apply IH.
Qed.
Lemma u_poly_mul a b : uni (poly_mul F a b) (poly_mul F a b).
Proof.
  apply u_guard. apply u_bind.
  - apply u_fold. intros P [i x]. apply u_fold. intros P' [j y]. apply u_bind; [apply u_mul|]. intros m. apply u_ret.
  - intros P. apply u_bind; [apply u_checks|]. intros _. apply u_ret.
Qed.
Lemma u_recompose q m r w : uni (bn_recompose F q m r w) (bn_recompose F q m r w).
Proof. apply u_bind; [apply u_poly_mul|]. intros P. cbv zeta. apply u_ret. Qed.
Lemma u_div num nb w m : looks num -> uni (bn_div_witness F num nb w m) (bn_div_witness F num nb w m).
Proof.
  intros K. apply u_guard. cbv zeta. apply u_look; [exact K|exact K|]. intros n n'. apply u_look; [apply k_bn|apply k_bn|]. intros v v'. apply u_guard.
  apply u_bind; [apply u_bn_witness|]. intros q. apply u_bind; [apply u_wf|]. intros _. apply u_look; [exact K|exact K|]. intros n1 n1'. apply u_look; [apply k_bn|apply k_bn|]. intros v1 v1'.
  apply u_bind; [apply u_bn_witness|]. intros r. apply u_bind; [apply u_wf|]. intros _. apply u_ret.
Qed.
Lemma u_mult_mod a b m : uni (bn_mult_mod F a b m) (bn_mult_mod F a b m).
Proof.
  apply u_guard. apply u_bind; [apply u_div|].
  - apply k_bind; [apply k_bn|]. intros. apply k_bind; [apply k_bn|]. intros. apply k_ret.
  - intros [q r]. apply u_bind; [apply u_poly_mul|]. intros l. apply u_bind; [apply u_recompose|]. intros rt. cbv zeta. apply u_bind; [apply u_regroup|]. intros _. apply u_ret.
Qed.
Lemma u_red_mod a m : uni (bn_red_mod F a m) (bn_red_mod F a m).
Proof.
  apply u_guard. apply u_bind; [apply u_div, k_bn|]. intros [q r]. apply u_bind; [apply u_recompose|]. intros rt. apply u_bind; [apply u_regroup|]. intros _. apply u_ret.
Qed.
(** ** The transcript *)
Lemma u_mimc x y : uni (mimc_g F x y) (mimc_g F x y).
Proof.
  apply u_bind; [|intros; apply u_ret]. apply u_fold. intros [l r] c. unfold mimc_round_g, fa_square. cbv zeta. do 4 (apply u_bind; [apply u_mul|]; intros ?). apply u_ret.
Qed.
Lemma u_squeeze st n : uni (squeeze_g F st n) (squeeze_g F st n).
Proof.
  unfold squeeze_g. apply u_bind.
  { apply u_fold. intros acc s. apply u_bind; [apply u_mimc|]. intros h. apply u_ret. }
  intros h. apply u_bind; [apply u_to_bits, L|]. intros bs. apply u_bind; [|intros; apply u_ret].
  apply u_fold. intros [v m] b. apply u_bind; [apply u_select|]. intros v'. apply u_ret.
Qed.
End BigNat.

Section Aug.
Variables (B S : pfield) (C : driver B S).
Hypothesis L : forall v v', length (pf_bits B v) = length (pf_bits B v').
Lemma u_point (p p' : d_pt C) : uni (point_witness B S C p) (point_witness B S C p'). Proof. apply u_pa_witness. Qed.
Lemma u_at {A} (x x' : list S) i (k k' : S -> G B A) : (forall v v', uni (k v) (k' v')) -> uni (bind (at_ B S x i) k) (bind (at_ B S x' i) k').
Proof. intros H. apply u_look; [apply k_lift|apply k_lift|]. exact H. Qed.
Lemma u_ia (i i' : inst C) : uni (ia_witness B S C i) (ia_witness B S C i').
Proof.
  unfold ia_witness. apply u_bind; [apply u_point|]. intros w. apply u_at. intros ? ?. apply u_bind; [apply u_fw|]. intros ?. apply u_at. intros ? ?. apply u_bind; [apply u_fw|]. intros ?. apply u_ret.
Qed.
Lemma u_ra (i i' : rinst C) : uni (ra_witness B S C i) (ra_witness B S C i').
Proof.
  unfold ra_witness. do 2 (apply u_bind; [apply u_point|]; intros ?). apply u_bind; [apply u_fw|]. intros u. apply u_at. intros ? ?. apply u_bind; [apply u_bn_witness|]. intros ?.
  apply u_at. intros ? ?. apply u_bind; [apply u_bn_witness|]. intros ?. apply u_ret.
Qed.
Lemma u_ra_from i : uni (ra_from_instance B i) (ra_from_instance B i).
Proof. unfold ra_from_instance. do 2 (apply u_bind; [apply u_from_field, L|]; intros ?). apply u_ret. Qed.
Lemma u_ra_select a b c : uni (ra_conditional_select B a b c) (ra_conditional_select B a b c).
Proof.
  unfold ra_conditional_select. do 2 (apply u_bind; [apply u_pa_select|]; intros ?). apply u_bind; [apply u_select|]. intros ?. do 2 (apply u_bind; [apply u_bn_select|]; intros ?). apply u_ret.
Qed.
Lemma u_absorb a : uni (ra_absorb B a) (ra_absorb B a).
Proof. unfold ra_absorb. do 2 (apply u_bind; [apply u_descale|]; intros ?). apply u_ret. Qed.
Lemma u_hash a i z0 zi : uni (ra_hash B a i z0 zi) (ra_hash B a i z0 zi).
Proof. unfold ra_hash. apply u_bind; [apply u_absorb|]. intros st. apply u_squeeze, L. Qed.
Lemma u_challenge a t : uni (get_challenge B a t) (get_challenge B a t).
Proof. unfold get_challenge. apply u_bind; [apply u_absorb|]. intros st. apply u_squeeze, L. Qed.
Lemma u_nifs_x a x r m : uni (nifs_x B a x r m) (nifs_x B a x r m).
Proof.
  unfold nifs_x. apply u_value. intros ? ?. apply u_bind; [apply u_bn_witness|]. intros xb. apply u_bind; [apply u_mult_mod, L|]. intros rx. apply u_lift. intros s s' E E'.
  replace s' with s by congruence. apply u_red_mod, L.
Qed.
Lemma u_nifs r U u t : uni (nifs_verify B S C r U u t) (nifs_verify B S C r U u t).
Proof.
  unfold nifs_verify. apply u_bind; [apply u_scalar, L|]. intros rw. apply u_bind; [apply u_pa_add|]. intros wf. apply u_value. intros ? ?.
  apply u_bind; [apply u_scalar, L|]. intros rt. apply u_bind; [apply u_pa_add|]. intros ef. apply u_value. intros ? ?.
  apply u_bind; [apply u_from_field, L|]. intros rb. apply u_bind; [apply u_bn_witness|]. intros mb. do 2 (apply u_value; intros ? ?).
  apply u_bind; [apply u_fw|]. intros uf. apply u_bind; [apply u_enforce_c|]. intros _. do 2 (apply u_bind; [apply u_nifs_x|]; intros ?). apply u_ret.
Qed.
End Aug.
