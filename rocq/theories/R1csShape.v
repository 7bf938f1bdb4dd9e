(** The gates a gadget adds do not depend on the values in the system; so an adversary may run it on
    values of its own. *)
From Coq Require Import ZArith List Bool Lia Field.
From Verif Require Import Algebra WeierModel R1csModel R1csSpec R1csProofs GadgetProofs RangeProofs CurveSpec CompleteAdd CurveGadget.
Import ListNotations.
Local Open Scope fld_scope.

Section Shape.
Variable F : Fld.
Add Field shfield : (kth F).
Implicit Types (cs : r1cs F) (s : asg F) (x y z : row F).
Definition same_shape cs cs' : Prop :=
  r_m cs = r_m cs' /\ r_a cs = r_a cs' /\ r_b cs = r_b cs' /\ r_c cs = r_c cs' /\ length (r_x cs) = length (r_x cs') /\ length (r_w cs) = length (r_w cs').
(** Two gadgets that build the same system up to values. *)
Definition shape2 {A} (g g' : G F A) : Prop := forall cs cs', same_shape cs cs' ->
  match g cs, g' cs' with
  | Some (a, d), Some (a', d') => a = a' /\ same_shape d d'
  | None, None => True
  | _, _ => False
  end.
Lemma sh_ret {A} (a : A) : shape2 (ret a) (ret a). Proof. intros cs cs' H. split; [reflexivity|exact H]. Qed.
Lemma sh_panic {A} : shape2 (panic (A := A)) panic. Proof. intros cs cs' H. exact I. Qed.
Lemma sh_bind {A B} (g g' : G F A) (k k' : A -> G F B) : shape2 g g' -> (forall a, shape2 (k a) (k' a)) -> shape2 (bind g k) (bind g' k').
Proof.
  intros H K cs cs' S. specialize (H cs cs' S). unfold bind. destruct (g cs) as [[a d]|], (g' cs') as [[a' d']|]; try contradiction; [|exact I].
  destruct H as [<- D]. apply (K a d d' D).
Qed.
Lemma sh_gate x y z : shape2 (gate (mul_gate F x y z)) (gate (mul_gate F x y z)).
Proof. intros cs cs' (A & B & C & D & X & W). split; [reflexivity|]. unfold same_shape. cbn. rewrite A, B, C, D. tauto. Qed.
Lemma sh_add_gate x y z : shape2 (gate (add_gate F x y z)) (gate (add_gate F x y z)).
Proof. intros cs cs' (A & B & C & D & X & W). split; [reflexivity|]. unfold same_shape. cbn. rewrite A, B, C, D. tauto. Qed.
Lemma sh_new_w v v' : shape2 (new_w F v) (new_w F v').
Proof. intros cs cs' (A & B & C & D & X & W). cbn. rewrite W. split; [reflexivity|]. unfold same_shape. cbn. rewrite !app_length, W. tauto. Qed.
Lemma sh_new_x v v' : shape2 (new_x F v) (new_x F v').
Proof. intros cs cs' (A & B & C & D & X & W). cbn. rewrite X. split; [reflexivity|]. unfold same_shape. cbn. rewrite !app_length, X. tauto. Qed.
Lemma wv_shape cs cs' w : same_shape cs cs' -> (wire_value (r_x cs) (r_w cs) w = None <-> wire_value (r_x cs') (r_w cs') w = None).
Proof. intros (_ & _ & _ & _ & X & W). destruct w; cbn; rewrite !nth_error_None; lia. Qed.
Lemma sh_wire {B} w (k k' : F -> G F B) : (forall v v', shape2 (k v) (k' v')) -> shape2 (bind (wire_of w) k) (bind (wire_of w) k').
Proof.
  intros K cs cs' S. pose proof (wv_shape cs cs' w S) as E. unfold bind, wire_of.
  destruct (wire_value (r_x cs) (r_w cs) w) as [v|], (wire_value (r_x cs') (r_w cs') w) as [v'|].
  - apply (K v v' cs cs' S).
  - discriminate (proj2 E eq_refl).
  - discriminate (proj1 E eq_refl).
  - exact I.
Qed.
Lemma re_shape cs cs' r : same_shape cs cs' -> (row_evaluate r (r_x cs) (r_w cs) = None <-> row_evaluate r (r_x cs') (r_w cs') = None).
Proof.
  intros S. unfold row_evaluate. assert (GG : forall r a a', (a = None <-> a' = None) ->
    (fold_left (fun acc e => match acc, wire_value (r_x cs) (r_w cs) (fst e) with Some s, Some v => Some (s + v * snd e) | _, _ => None end) r a = None <->
     fold_left (fun acc e => match acc, wire_value (r_x cs') (r_w cs') (fst e) with Some s, Some v => Some (s + v * snd e) | _, _ => None end) r a' = None)).
  { clear r. induction r as [|[w c] r IH]; intros a a' E; cbn [fold_left]; [exact E|]. apply IH. cbn [fst snd]. pose proof (wv_shape cs cs' w S) as EW.
    destruct a, a', (wire_value (r_x cs) (r_w cs) w), (wire_value (r_x cs') (r_w cs') w); cbn; intuition discriminate. }
  apply GG. split; discriminate.
Qed.
Lemma sh_value {B} x (k k' : F -> G F B) : (forall v v', shape2 (k v) (k' v')) -> shape2 (bind (value_of x) k) (bind (value_of x) k').
Proof.
  intros K cs cs' S. pose proof (re_shape cs cs' x S) as E. unfold bind, value_of.
  destruct (row_evaluate x (r_x cs) (r_w cs)) as [v|], (row_evaluate x (r_x cs') (r_w cs')) as [v'|].
  - apply (K v v' cs cs' S).
  - discriminate (proj2 E eq_refl).
  - discriminate (proj1 E eq_refl).
  - exact I.
Qed.
Lemma sh_for {A B} (g g' : A -> G F B) l : (forall a, shape2 (g a) (g' a)) -> shape2 (for_each g l) (for_each g' l).
Proof. intros H. induction l as [|a l IH]; cbn [for_each]; [apply sh_ret|]. apply sh_bind; [apply H|]. intros b. apply sh_bind; [exact IH|]. intros r. apply sh_ret. Qed.
Lemma sh_for2 {A B} (g g' : A -> G F B) : forall l l', length l = length l' -> (forall a a', shape2 (g a) (g' a')) -> shape2 (for_each g l) (for_each g' l').
Proof.
  induction l as [|a l IH]; intros [|a' l'] L H; try discriminate; cbn [for_each]; [apply sh_ret|]. apply sh_bind; [apply H|]. intros b.
  apply sh_bind; [apply IH; [cbn in L; congruence|exact H]|]. intros r. apply sh_ret.
Qed.
Lemma sh_fold {A B} (g g' : B -> A -> G F B) : (forall b a, shape2 (g b a) (g' b a)) -> forall l b, shape2 (fold_g g b l) (fold_g g' b l).
Proof. intros H. induction l as [|a l IH]; intros b; cbn [fold_g]; [apply sh_ret|]. apply sh_bind; [apply H|]. intros c. apply IH. Qed.

(** The gadgets. *)
Lemma sh_fw v v' : shape2 (fa_witness F v) (fa_witness F v').
Proof. unfold fa_witness. apply sh_bind; [apply sh_new_w|]. intros w. apply sh_ret. Qed.
Lemma sh_mul x y : shape2 (fa_mul F x y) (fa_mul F x y).
Proof.
  unfold fa_mul. destruct (as_constant F x); [apply sh_ret|]. destruct (as_constant F y); [apply sh_ret|]. apply sh_value. intros u u'. apply sh_value. intros v v'.
  apply sh_bind; [apply sh_fw|]. intros z. apply sh_bind; [apply sh_gate|]. intros _. apply sh_ret.
Qed.
Lemma sh_enforce x y : shape2 (fa_enforce_eq F x y) (fa_enforce_eq F x y). Proof. apply sh_gate. Qed.
Lemma sh_enforce_c x c : shape2 (fa_enforce_eq_constant F x c) (fa_enforce_eq_constant F x c). Proof. apply sh_gate. Qed.
Lemma sh_not w : shape2 (bin_not F w) (bin_not F w).
Proof. unfold bin_not. apply sh_wire. intros v v'. apply sh_new_w. Qed.
Lemma sh_products : forall acs p l, shape2 (rc_products F p l acs) (rc_products F p l acs).
Proof.
  induction acs as [|[a c] acs IH]; intros p l; cbn [rc_products]; [apply sh_ret|]. destruct c; [|apply IH]. apply sh_bind; [apply sh_mul|]. intros n. apply IH.
Qed.
Lemma sh_bools : forall acs i p, shape2 (rc_bools F i p acs) (rc_bools F i p acs).
Proof.
  induction acs as [|[a c] acs IH]; intros i p; cbn [rc_bools]; [apply sh_ret|]. apply sh_bind; [|intros _; apply IH]. destruct c.
  - apply sh_bind; [apply sh_mul|]. intros b. apply sh_enforce.
  - destruct i as [|j]; [apply sh_panic|]. destruct (nth_error p j); [|apply sh_panic]. apply sh_bind; [apply sh_mul|]. intros b. apply sh_enforce.
Qed.
Lemma sh_range bits ws c : shape2 (fa_range_check F bits ws c) (fa_range_check F bits ws c).
Proof.
  unfold fa_range_check. destruct (Nat.ltb _ _); [apply sh_ret|]. apply sh_bind; [apply sh_for; intros w; apply sh_enforce_c|]. intros _.
  destruct (skipn _ ws) as [|a0 l]; [apply sh_panic|]. cbv zeta. apply sh_bind; [apply sh_products|]. intros p. apply sh_bools.
Qed.
(** Bit decomposition on bits the adversary chooses. *)
Definition to_bits_adv (bits : F -> list bool) (pow2 : nat -> F) (modulus : F) (nbits : nat) (chosen : list bool) (x : row F) (num_bits : nat) : G F (list wire) :=
  if Nat.ltb 256 num_bits then panic
  else
    bind (value_of x) (fun v =>
    bind (for_each (bin_witness F) chosen) (fun bs =>
    let bit_repr := skipn (256 - num_bits) bs in
    bind (if Nat.ltb num_bits nbits then fa_range_check_bits F bits pow2 bit_repr num_bits
         else fa_range_check F bits bit_repr (modulus - 1)) (fun _ =>
    ret bit_repr))).
Lemma sh_to_bits bits pow2 modulus nbits chosen x n : (forall v, length (bits v) = length chosen) ->
  shape2 (fa_to_bits F bits pow2 modulus nbits x n) (to_bits_adv bits pow2 modulus nbits chosen x n).
Proof.
  intros L. unfold fa_to_bits, to_bits_adv. destruct (Nat.ltb 256 n); [apply sh_panic|]. apply sh_value. intros v v'.
  apply sh_bind; [apply sh_for2; [apply L|]; intros a a'; apply sh_new_w|]. intros bs. cbv zeta.
  apply sh_bind; [destruct (Nat.ltb n nbits); apply sh_range|]. intros _. apply sh_ret.
Qed.
Definition is_neq_adv (o mu no : F) (x y : row F) : G F wire :=
  bind (value_of x) (fun _ => bind (value_of y) (fun _ =>
  bind (new_w F o) (fun out => bind (fa_witness F mu) (fun multiplier =>
  bind (fa_mul F (fa_minus F x y) multiplier) (fun m => bind (fa_enforce_eq F m (fa_bit F out)) (fun _ =>
  bind (bind (wire_of out) (fun _ => new_w F no)) (fun nout => bind (fa_mul F (fa_minus F x y) (fa_bit F nout)) (fun m =>
  bind (fa_enforce_eq F m (fa_constant F 0)) (fun _ => ret out))))))))).
Lemma sh_is_neq o mu no x y : shape2 (fa_is_neq F x y) (is_neq_adv o mu no x y).
Proof.
  unfold fa_is_neq, is_neq_adv. apply sh_value. intros u u'. apply sh_value. intros v v'. apply sh_bind; [apply sh_new_w|]. intros out.
  apply sh_bind.
  { destruct (keqb_spec F u v) as [E|E]; [apply sh_fw|]. unfold kinvert, kis0. destruct (keqb_spec F (u - v) 0) as [D|D]; [|apply sh_fw].
    exfalso. apply E. apply (proj1 (ksub_eq0 F _ _)) in D. exact D. }
  intros mul. apply sh_bind; [apply sh_mul|]. intros m. apply sh_bind; [apply sh_enforce|]. intros _.
  apply sh_bind; [apply sh_wire; intros; apply sh_new_w|]. intros nout. apply sh_bind; [apply sh_mul|]. intros m'.
  apply sh_bind; [apply sh_enforce|]. intros _. apply sh_ret.
Qed.
Lemma sh_select p w : shape2 (pa_select_identity F p w) (pa_select_identity F p w).
Proof. unfold pa_select_identity. do 3 (apply sh_bind; [apply sh_mul|]; intros ?). apply sh_ret. Qed.
Definition descale_adv (o mu no iv : F) (p : point_asg F) : G F (point_asg F) :=
  bind (is_neq_adv o mu no (pa_z p) (fa_constant F 0)) (fun take_value =>
  bind (value_of (pa_z p)) (fun _ =>
  bind (fa_witness F iv) (fun inv =>
  bind (fa_mul F (pa_x p) inv) (fun x =>
  bind (fa_mul F (pa_y p) inv) (fun y =>
  pa_select_identity F (PA x y (fa_constant F 1)) take_value))))).
Lemma sh_descale o mu no iv p : shape2 (pa_descale F p) (descale_adv o mu no iv p).
Proof.
  unfold pa_descale, descale_adv. apply sh_bind; [apply sh_is_neq|]. intros t. apply sh_value. intros v v'. apply sh_bind; [apply sh_fw|]. intros i.
  apply sh_bind; [apply sh_mul|]. intros x. apply sh_bind; [apply sh_mul|]. intros y. apply sh_select.
Qed.
Lemma sh_pa_add b3 p q : shape2 (pa_add F b3 p q) (pa_add F b3 p q).
Proof. unfold pa_add. cbv zeta. do 14 (apply sh_bind; [apply sh_mul|]; intros ?). apply sh_ret. Qed.
Lemma sh_pa_double b3 p : shape2 (pa_double F b3 p) (pa_double F b3 p).
Proof. unfold pa_double. cbv zeta. do 9 (apply sh_bind; [apply sh_mul|]; intros ?). apply sh_ret. Qed.
Definition scalar_adv (b3 : F) (bits : F -> list bool) (pow2 : nat -> F) (modulus : F) (nbits : nat) (chosen : list bool)
    (p : point_asg F) (scalar : row F) : G F (point_asg F) :=
  bind (to_bits_adv bits pow2 modulus nbits chosen scalar 256) (fun bs => fold_g (sp_step F b3 p) (pa_identity F) bs).
Lemma sh_scalar b3 bits pow2 modulus nbits chosen p x : (forall v, length (bits v) = length chosen) ->
  shape2 (pa_scalar_point F b3 bits pow2 modulus nbits p x) (scalar_adv b3 bits pow2 modulus nbits chosen p x).
Proof.
  intros L. unfold pa_scalar_point, scalar_adv. apply sh_bind; [apply sh_to_bits, L|]. intros bs. apply sh_fold. intros b a. unfold sp_step.
  apply sh_bind; [apply sh_pa_double|]. intros r. apply sh_bind; [apply sh_select|]. intros q. apply sh_pa_add.
Qed.

(** ** The adversary's run *)
Definition with_values s cs : r1cs F :=
  mkR1cs (r_m cs) (r_a cs) (r_b cs) (r_c cs) (map (fun i => s (Inst i)) (seq 0 (length (r_x cs)))) (map (fun i => s (Wit i)) (seq 0 (length (r_w cs)))).
Lemma wv_same s cs : same_shape cs (with_values s cs).
Proof. unfold same_shape, with_values. cbn. rewrite !map_length, !seq_length. auto 10. Qed.
Lemma nth_map_seq (f : nat -> F) n i : (i < n)%nat -> nth_error (map f (seq 0 n)) i = Some (f i).
Proof.
  intros H. rewrite nth_error_map, (nth_error_nth' (seq 0 n) O) by (rewrite seq_length; exact H). rewrite seq_nth by exact H. reflexivity.
Qed.
Lemma wv_own s cs w : in_range cs w -> own (with_values s cs) w = s w.
Proof. intros H. unfold own, with_values. destruct w as [i|i]; cbn [wire_value r_x r_w]; cbn in H; rewrite nth_map_seq by exact H; reflexivity. Qed.
Lemma wv_in s cs w : in_range (with_values s cs) w <-> in_range cs w.
Proof. destruct w; cbn; rewrite map_length, seq_length; reflexivity. Qed.
Lemma wv_range s cs l : Forall (in_range cs) l -> Forall (in_range (with_values s cs)) l.
Proof. apply Forall_impl. intros w. apply wv_in. Qed.
Lemma wv_ok s cs r : row_ok cs r -> row_ok (with_values s cs) r.
Proof. intros [A B]. split; [apply wv_range, A|exact B]. Qed.
Lemma wv_lc s cs r : Forall (in_range cs) (map fst r) -> lc (own (with_values s cs)) r = lc s r.
Proof.
  induction r as [|[w c] r IH]; cbn [map fst]; intros H; [reflexivity|]. inversion H; subst. rewrite !lc_cons, IH, wv_own by assumption. reflexivity.
Qed.
Lemma wv_wf s cs : wf_cs cs -> s ONE = 1 -> wf_cs (with_values s cs).
Proof.
  intros (LA & LB & LC & O & R) S. unfold wf_cs. cbn [with_values r_a r_b r_c r_m r_x].
  split; [exact LA|]. split; [exact LB|]. split; [exact LC|]. split.
  - rewrite nth_map_seq; [rewrite <- S; reflexivity|]. apply nth_error_Some. rewrite O. discriminate.
  - revert R. apply Forall_impl. intros r. apply wv_range.
Qed.
Lemma admits_by {A} cs (g : G F A) (R : asg F -> A -> Prop) : wf_cs cs ->
  (forall s, satisfies s cs -> exists (g' : G F A) (ok : r1cs F -> A -> Prop) (R' : asg F -> A -> Prop), shape2 g g' /\ computes True (with_values s cs) g' ok R' /\
     (forall a cs', wf_cs cs' -> (forall w, in_range cs w -> own cs' w = s w) -> ok cs' a -> R' (own cs') a -> R (own cs') a)) ->
  admits cs g R.
Proof.
  intros W H s [S HS]. destruct (H s (conj S HS)) as (g' & ok & R' & SH & (a & d & new & E & Wd & Gr & HN & O & SS) & K). specialize (HN I).
  specialize (SH cs (with_values s cs) (wv_same s cs)). rewrite E in SH. destruct (g cs) as [[a' d']|] eqn:EG; [|contradiction]. destruct SH as [<- SD].
  assert (AG : forall w, in_range cs w -> own d w = s w).
  { intros w HW. rewrite (grow_own F _ _ _ _ Gr) by (apply wv_in, HW). apply wv_own, HW. }
  exists a', d', (own d). split; [reflexivity|]. split; [|split; [exact AG|apply (K a' d Wd AG O), SS; [apply own_one, Wd|exact HN]]].
  split; [apply own_one, Wd|]. destruct SD as (_ & SA & SB & SC & _). assert (EGs : gates d' = gates d) by (unfold gates; rewrite SA, SB, SC; reflexivity).
  rewrite EGs, (proj2 (proj2 Gr)). apply Forall_app. split; [|exact HN].
  change (gates (with_values s cs)) with (gates cs). pose proof (gates_range F cs W) as RG. rewrite Forall_forall in *. intros g0 I0. destruct (RG g0 I0) as (RA & RB & RC).
  assert (EQ : forall r, Forall (in_range cs) (map fst r) -> lc (own d) r = lc s r).
  { intros r Hr. rewrite (grow_lc F _ _ _ _ Gr) by (apply wv_range, Hr). apply wv_lc, Hr. }
  unfold holds. rewrite !EQ by assumption. apply (HS g0 I0).
Qed.
End Shape.
