(** Further theorems of C19, C20, C27, C15, C30, C31 and C46: constructors, sums and small gadgets. *)
From Coq Require Import ZArith List Bool Lia Field.
From Verif Require Import LimbModel FieldSpec FieldMore Primes Algebra CurveSpec CurveGroup WeierModel WeierProofs ExtParams CurveParams ExtModel ExtProofs PolyModel ClaimsCurve
  R1csModel R1csSpec R1csProofs GadgetProofs CurveGadget R1csShape ForgeProofs NovaModel NovaSpec NovaProofs NovaFields BigNatModel BigNatSpec HonestRun LimbVec BigNatRun AugmentedModel ClaimsR1cs ClaimsBigNat.
Import ListNotations.
Local Open Scope fld_scope.

(** ** Points from coordinates, and [Sum] *)
Section Curve.
Variables (K : Fld) (b b3 : K).
Hypothesis OK : curve_ok K b b3.
Add Field cxf : (kth K).
Notation on := (on_curve b).
Theorem C19_from_x_and_y (x y : K) : aff_pt K (aff_from_x_and_y K x y) = Pt x y /\ proj_pt K (proj_from_x_and_y K x y) = Pt x y.
Proof.
  split; [reflexivity|]. unfold proj_from_x_and_y. rewrite proj_pt_fin by apply k1_neq0. cbn [jx jy jz]. f_equal; field; apply k1_neq0.
Qed.
(** The sum of a list of curve points, in order, starting from the identity. *)
Theorem C20_sum l : Forall (fun p => on (proj_pt K p)) l ->
  proj_pt K (proj_sum K b3 l) = fold_left pt_add (map (proj_pt K) l) Inf /\ on (proj_pt K (proj_sum K b3 l)).
Proof.
  destruct OK as (Hb3 & two & three & bnz). intros H. unfold proj_sum.
  assert (G : forall r R, proj_pt K r = R -> on R -> proj_pt K (fold_left (proj_add K b3) l r) = fold_left pt_add (map (proj_pt K) l) R /\ on (proj_pt K (fold_left (proj_add K b3) l r))).
  { induction H as [|p l HP HL IH]; intros r R E HR; cbn [fold_left map]; [subst R; split; [reflexivity|exact HR]|].
    apply IH; [rewrite <- E in *; apply (add_proj_ok K b b3 Hb3 two); assumption|]. apply (add_on K b two three bnz); assumption. }
  apply G; [apply identity_pt|exact I].
Qed.
End Curve.
Example C20_sum_case : let g := proj_from_x_and_y FqFld 1 (1 + 1) in on_curve g1_param_b (proj_pt FqFld g) /\ proj_is_identity FqFld (proj_sum FqFld g1_param_b3 [g; g; g]) = false.
Proof. cbv zeta. rewrite (proj2 (C19_from_x_and_y FqFld 1 (1 + 1))). split; [unfold on_curve; apply keqb_eq; vm_compute; reflexivity|vm_compute; reflexivity]. Qed.

(** ** Zero tests of the sextic and dodecic extensions *)
Theorem C15_is_zero : (forall a, q6_is0 FqFld a = true <-> a = q6_0 FqFld) /\ (forall a, q12_is0 FqFld a = true <-> a = q12_0 FqFld).
Proof. split; [intros; apply q6_is0_eq|intros; apply q12_is0_eq]. Qed.

(** ** [Coefficients::t]: its zeros are the n-th roots of unity *)
Theorem C27_t (K : Fld) n (tau : K) : poly_t K n tau = 0 <-> kpow tau n = 1.
Proof.
  unfold poly_t. pose proof (F_R (kth K)) as R. split; intros H.
  - rewrite (Rsub_def R) in H. rewrite <- (Radd_0_l R (kpow tau n)), (Radd_comm R), <- (Ropp_def R 1), (Radd_comm R 1), (Radd_assoc R), H. apply (Radd_0_l R).
  - rewrite H, (Rsub_def R). apply (Ropp_def R).
Qed.

(** ** Gadgets *)
Section Gadgets.
Variable F : Fld.
Variable cs : r1cs F.
Hypothesis W : wf_cs cs.
Ltac complete L := eapply complete_weaken; [eapply (computes_complete F True cs); [exact I|exact W|apply L]|cbv beta].
Theorem C30_boolean_inputs (v : bool) :
  complete_at cs (bin_instance F v) (fun cs' w => in_range cs' w /\ own cs' w = (if v then 1 else 0)) /\
  complete_at cs (bin_witness F v) (fun cs' w => in_range cs' w /\ own cs' w = (if v then 1 else 0)).
Proof. split; [complete new_x_ok|complete new_w_ok]; try exact W; intros cs' w _ [[O V] _]; (split; [exact O|rewrite V; destruct v; reflexivity]). Qed.
Theorem C30_boolean_conditional_enforce_equal x y c : in_range cs x -> in_range cs y -> in_range cs c -> own cs c = 0 \/ own cs x = own cs y ->
  complete_at cs (bin_conditional_enforce_equal F x y c) (fun _ _ => True).
Proof.
  intros HX HY HC H. unfold bin_conditional_enforce_equal. apply (C30_conditional_enforce_equal F cs W); [apply ok_wire, HX|apply ok_wire, HY|exact HC|].
  unfold fa_bit. rewrite !lc_wire. exact H.
Qed.
Theorem C31_boolean_conditional_enforce_equal x y c : in_range cs x -> in_range cs y -> in_range cs c ->
  sound_at cs (bin_conditional_enforce_equal F x y c) (fun s _ => s c = 0 \/ s x = s y).
Proof.
  intros HX HY HC a cs' E s S. pose proof (C31_conditional_enforce_equal F cs W (fa_bit F x) (fa_bit F y) c (ok_wire F cs x HX) (ok_wire F cs y HY) HC a cs' E s S) as H.
  cbv beta in H. unfold fa_bit in H. rewrite !lc_wire in H. exact H.
Qed.
(** A point as public input: its coordinates, with [z] zero for the identity and one otherwise. *)
Theorem C30_point_inputs (a : aff F) :
  complete_at cs (pa_instance F a) (fun cs' r => row_ok cs' (pa_x r) /\ row_ok cs' (pa_y r) /\ row_ok cs' (pa_z r) /\
    lc (own cs') (pa_x r) = ax a /\ lc (own cs') (pa_y r) = ay a /\ lc (own cs') (pa_z r) = (if ainf a then 0 else 1)) /\
  complete_at cs (pa_witness F (ax a) (ay a) (ainf a)) (fun cs' r => row_ok cs' (pa_x r) /\ row_ok cs' (pa_y r) /\ row_ok cs' (pa_z r) /\
    lc (own cs') (pa_x r) = ax a /\ lc (own cs') (pa_y r) = ay a /\ lc (own cs') (pa_z r) = (if ainf a then 0 else 1)).
Proof.
  split; [complete pa_instance_ok|complete pa_witness_ok]; try exact W; intros cs' r _ [[(HX & HY & HZ) V] _]; unfold pval in V; injection V as V1 V2 V3; auto 10.
Qed.
(** Publishing a value: one more public input, holding the value the row has. *)
Theorem C30_inputize x : row_ok cs x ->
  complete_at cs (fa_inputize F x) (fun cs' z => row_ok cs' z /\ lc (own cs') z = lc (own cs) x /\
    r_x cs' = r_x cs ++ [lc (own cs) x] /\ r_w cs' = r_w cs).
Proof.
  intros [HX ND].
  assert (E : forall v, row_evaluate x (r_x cs) (r_w cs) = Some v -> fa_inputize F x cs = fa_instance F v cs).
  { intros v H. unfold fa_inputize, fa_instance, bind, value_of. rewrite H. reflexivity. }
  pose proof (E _ (row_evaluate_ok F cs x HX)) as E1.
  destruct (proj2 (C30_inputs F cs W (lc (own cs) x))) as (z & cs' & G & W' & X & S & (O & V)).
  exists z, cs'. rewrite E1. repeat (split; [assumption|]). unfold fa_instance, bind, new_x, ret in G. cbn [push_x] in G.
  injection G as <- <-. cbn [r_x r_w]. auto.
Qed.
End Gadgets.

(** ** Matrix-vector product: the values of the rows, padded with zeros to [m]; [m] below the number of rows panics *)
Theorem C29_matrix_product (F : Fld) (mat : list (row F)) (m : nat) (x w : list F) :
  let cs := mkR1cs 0 [] [] [] x w in Forall (fun r => Forall (in_range cs) (map fst r)) mat ->
  ((length mat <= m)%nat -> exists v, matrix_prod F mat m (length x) (x ++ w) = Some v /\ length v = m /\
    (forall i r, nth_error mat i = Some r -> nth_error v i = Some (lc (own cs) r)) /\ (forall i, (length mat <= i < m)%nat -> nth_error v i = Some 0)) /\
  ((m < length mat)%nat -> matrix_prod F mat m (length x) (x ++ w) = None).
Proof.
  intros cs H. split; intros L; unfold matrix_prod; [|rewrite (proj2 (Nat.ltb_lt _ _) L); reflexivity]. rewrite (proj2 (Nat.ltb_ge _ _) L).
  rewrite (all_some_map _ (lc (own cs))) by (intros r I; rewrite Forall_forall in H; apply (prod_row_ok F cs), H, I). eexists. split; [reflexivity|]. split; [|split].
  - rewrite app_length, map_length, repeat_length. lia.
  - intros i r E. rewrite nth_error_app1 by (rewrite map_length; apply nth_error_Some; rewrite E; discriminate). apply map_nth_error, E.
  - intros i R. rewrite nth_error_app2 by (rewrite map_length; lia). rewrite map_length. rewrite nth_error_repeat by lia. reflexivity.
Qed.
Example C29_matrix_product_case : let cs := mkR1cs 0 [] [] [] [1; fr_mk 5] [fr_mk 2] in let r := [(Inst 1, fr_mk 3); (Wit 0, 1)] in
  Forall (in_range cs) (map fst r) /\ exists v, matrix_prod FrFld [r] 3 2 [1; fr_mk 5; fr_mk 2] = Some v /\ nth_error v 0 = Some (lc (own cs) r).
Proof.
  cbv zeta. assert (R : Forall (in_range (mkR1cs (F := FrFld) 0 [] [] [] [1; fr_mk 5] [fr_mk 2])) (map fst [(Inst 1, fr_mk 3); (Wit 0, 1)])) by (repeat constructor; cbn; lia).
  split; [exact R|]. destruct (proj1 (C29_matrix_product FrFld [[(Inst 1, fr_mk 3); (Wit 0, 1)]] 3 [1; fr_mk 5] [fr_mk 2] (Forall_cons _ R (Forall_nil _)))) as (v & E & _ & A & _); [cbn; lia|].
  exists v. split; [exact E|]. apply (A 0%nat). reflexivity.
Qed.

(** ** Equality of numbers of several limbs *)
Section Numbers.
Variable F : pfield.
Variable p : Z.
Hypothesis OK : field_ok F p.
Implicit Types cs : r1cs F.
Theorem C46_enforce_eq_complete cs (a b : bignat F) u : wf_cs cs -> is_number cs a u -> is_number cs b u -> complete_at cs (bn_enforce_eq F a b) (fun _ _ => True).
Proof. intros W HA HB. apply (number_iff F p OK) in HA, HB. apply runs_complete; [exact W|]. apply (run_bn_enforce_eq F cs a b u W HA HB). Qed.
Lemma enforce_limbs_ok : forall (la lb : list (row F)) cs, wf_cs cs -> Forall (row_ok cs) la -> Forall (row_ok cs) lb -> length la = length lb ->
  computes False cs (for_each (fun '(x, y) => fa_enforce_eq F x y) (combine la lb)) (fun _ _ => True) (fun s _ => map (lc s) la = map (lc s) lb).
Proof.
  induction la as [|x la IH]; intros [|y lb] cs W HA HB L; try discriminate; cbn [combine for_each map].
  - apply computes_ret; auto.
  - inversion HA as [|? ? HX HA']; subst. inversion HB as [|? ? HY HB']; subst.
    eapply computes_bind; [apply (enforce_eq_ok F False); [exact W|exact HX|exact HY|contradiction]|]. intros u cs1 n1 W1 G1 _ _.
    eapply computes_bind; [apply (IH lb cs1 W1)|].
    + eapply Forall_impl; [|exact HA']. intros r Hr. apply (grow_ok F _ _ _ _ G1 Hr).
    + eapply Forall_impl; [|exact HB']. intros r Hr. apply (grow_ok F _ _ _ _ G1 Hr).
    + injection L as L. exact L.
    + intros l cs2 n2 W2 G2 _ _. apply computes_ret; [exact W2|exact I|]. intros s _ E1 E2. rewrite E1, E2. reflexivity.
Qed.
(** Every satisfying assignment gives both numbers the same limbs. *)
Theorem C46_enforce_eq_sound cs (a b : bignat F) : wf_cs cs -> Forall (row_ok cs) (bn_limbs a) -> Forall (row_ok cs) (bn_limbs b) ->
  sound_at cs (bn_enforce_eq F a b) (fun s _ => map (lc s) (bn_limbs a) = map (lc s) (bn_limbs b)).
Proof.
  intros W HA HB t cs' E. unfold bn_enforce_eq in E. destruct (Nat.eqb_spec (length (bn_limbs a)) (length (bn_limbs b))) as [L|]; [|discriminate].
  revert t cs' E. change (sound_at cs (bind (for_each (fun '(x, y) => fa_enforce_eq F x y) (combine (bn_limbs a) (bn_limbs b))) (fun _ => ret tt)) (fun s _ => map (lc s) (bn_limbs a) = map (lc s) (bn_limbs b))).
  eapply computes_sound. eapply computes_bind; [apply enforce_limbs_ok; assumption|]. intros l cs1 n1 W1 G1 _ _. apply (computes_ret F False cs1 tt (fun _ _ => True)); auto.
Qed.
(** Numbers with a different count of limbs are refused. *)
Theorem C46_enforce_eq_lengths cs (a b : bignat F) : length (bn_limbs a) <> length (bn_limbs b) -> bn_enforce_eq F a b cs = None.
Proof. intros H. unfold bn_enforce_eq. destruct (Nat.eqb_spec (length (bn_limbs a)) (length (bn_limbs b))); [contradiction|reflexivity]. Qed.
End Numbers.

(** ** Selecting one of two assigned instances *)
Section Instance.
Variable B : pfield.
Variable cs : r1cs B.
Hypothesis W : wf_cs cs.
Definition instance_rows (a : inst_asg B) : list (row B) := [pa_x (ia_w a); pa_y (ia_w a); pa_z (ia_w a); ia_x0 a; ia_x1 a].
Add Field iself : (kth B).
Lemma ia_select_ok H (a b : inst_asg B) c : Forall (row_ok cs) (instance_rows a) -> Forall (row_ok cs) (instance_rows b) -> in_range cs c ->
  computes H cs (ia_conditional_select B a b c) (fun cs' r => Forall (row_ok cs') (instance_rows r))
    (fun s r => (s c = 1 -> map (lc s) (instance_rows r) = map (lc s) (instance_rows a)) /\ (s c = 0 -> map (lc s) (instance_rows r) = map (lc s) (instance_rows b))).
Proof.
  intros HA HB HC. unfold instance_rows in *. destruct a as [[ax ay az] a0 a1], b as [[bx by_ bz] b0 b1]. cbn [ia_w ia_x0 ia_x1 pa_x pa_y pa_z] in *.
  rewrite !Forall_cons_iff in HA, HB. destruct HA as (A1 & A2 & A3 & A4 & A5 & _), HB as (B1 & B2 & B3 & B4 & B5 & _).
  unfold ia_conditional_select. cbn [ia_w ia_x0 ia_x1].
  eapply computes_bind; [apply (pa_cond_select_ok B H cs (PA ax ay az) (PA bx by_ bz) c W); [split; [|split]; assumption|split; [|split]; assumption|exact HC]|]. intros w cs1 n1 W1 G1 O1 _.
  eapply computes_bind; [apply (select_ok B H cs1 a0 b0 c W1); [apply (grow_ok B _ _ _ _ G1 A4)|apply (grow_ok B _ _ _ _ G1 B4)|apply (grow_range B _ _ _ _ G1 HC)]|]. intros x0 cs2 n2 W2 G2 O2 _.
  pose proof (grow_trans B _ _ _ _ _ G1 G2) as G12.
  eapply computes_bind; [apply (select_ok B H cs2 a1 b1 c W2); [apply (grow_ok B _ _ _ _ G12 A5)|apply (grow_ok B _ _ _ _ G12 B5)|apply (grow_range B _ _ _ _ G12 HC)]|]. intros x1 cs3 n3 W3 G3 O3 _.
  pose proof (grow_trans B _ _ _ _ _ G2 G3) as G23. destruct O1 as (O1 & O1' & O1'').
  apply computes_ret; [exact W3| |].
  - cbn [ia_w ia_x0 ia_x1]. repeat apply Forall_cons; try apply Forall_nil; [apply (grow_ok B _ _ _ _ G23 O1)|apply (grow_ok B _ _ _ _ G23 O1')|apply (grow_ok B _ _ _ _ G23 O1'')|apply (grow_ok B _ _ _ _ G3 O2)|exact O3].
  - intros s _ E3 E2 E1. cbn [ia_w ia_x0 ia_x1 map]. cbv beta in *. rewrite E3, E2. clear - E1. unfold pval in E1. cbn [pa_x pa_y pa_z] in E1.
    split; intros E; rewrite E in *; [destruct E1 as [E1 _]|destruct E1 as [_ E1]]; specialize (E1 eq_refl); injection E1 as -> -> ->; repeat f_equal; ring.
Qed.
Theorem C30_instance_select (a b : inst_asg B) c : Forall (row_ok cs) (instance_rows a) -> Forall (row_ok cs) (instance_rows b) -> in_range cs c ->
  complete_at cs (ia_conditional_select B a b c) (fun cs' r => Forall (row_ok cs') (instance_rows r) /\
    (own cs' c = 1 -> map (lc (own cs')) (instance_rows r) = map (lc (own cs')) (instance_rows a)) /\
    (own cs' c = 0 -> map (lc (own cs')) (instance_rows r) = map (lc (own cs')) (instance_rows b))).
Proof. intros HA HB HC. eapply complete_weaken; [eapply (computes_complete B True cs); [exact I|exact W|apply ia_select_ok; assumption]|]. cbv beta. intros cs' r _ [O R]. split; [exact O|exact R]. Qed.
Theorem C31_instance_select (a b : inst_asg B) c : Forall (row_ok cs) (instance_rows a) -> Forall (row_ok cs) (instance_rows b) -> in_range cs c ->
  sound_at cs (ia_conditional_select B a b c) (fun s r => (s c = 1 -> map (lc s) (instance_rows r) = map (lc s) (instance_rows a)) /\
    (s c = 0 -> map (lc s) (instance_rows r) = map (lc s) (instance_rows b))).
Proof. intros HA HB HC. eapply computes_sound. apply (ia_select_ok False); assumption. Qed.
End Instance.
