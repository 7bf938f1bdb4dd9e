(** Honest folding step by step; and the public inputs of the step circuits, which no gate mentions. *)
From Coq Require Import ZArith List Bool Lia Field.
From Verif Require Import Algebra GroupLib CurveSpec WeierModel CurveAb CurveParams R1csModel R1csSpec R1csProofs R1csShape HonestRun
  NovaModel NovaSpec NovaProofs NovaFields BigNatModel BigNatRun AugmentedModel IvcModel IvcSpec AugShape AugRun ClaimsNova.
Import ListNotations.
Local Open Scope fld_scope.

Section System.
Variable F : Fld.
Add Field ivs : (kth F).
Implicit Types (cs : r1cs F) (w : wire) (x : list F).
Lemma own_asg cs x w : r_x cs = 1 :: x -> own cs w = asg_of 1 x (r_w cs) w.
Proof.
  intros E. unfold own, wire_value. rewrite E. destruct w as [[|i]|i]; cbn [nth_error asg_of]; [reflexivity| |].
  - destruct (nth_error x i) eqn:N; [symmetry; apply nth_error_nth, N|]. symmetry. apply nth_overflow, nth_error_None, N.
  - destruct (nth_error (r_w cs) i) eqn:N; [symmetry; apply nth_error_nth, N|]. symmetry. apply nth_overflow, nth_error_None, N.
Qed.
Lemma wf_shape_of cs : wf_cs cs -> wf_shape (shape_of cs).
Proof.
  intros (A & B & C & X & R). split; [exact A|]. split; [exact B|]. split; [exact C|]. cbn [shape_of sh_l sh_w sh_a sh_b sh_c]. eapply Forall_impl; [|exact R]. intros r H. eapply Forall_impl; [|exact H].
  intros [i|j]; cbn; [lia|auto].
Qed.
Lemma lc_ext (s s' : asg F) r : (forall w, In w (map fst r) -> s w = s' w) -> lc s r = lc s' r.
Proof.
  intros H. unfold lc. apply (f_equal ksum). apply map_ext_in. intros e I. rewrite (H (fst e)); [reflexivity|apply in_map, I].
Qed.
Lemma gates_nth cs i : wf_cs cs -> (i < r_m cs)%nat -> In (nth i (r_a cs) [], (nth i (r_b cs) [], nth i (r_c cs) [])) (gates cs).
Proof.
  intros (A & B & C & _) H. unfold gates.
  replace (nth i (r_a cs) [], (nth i (r_b cs) [], nth i (r_c cs) [])) with (nth i (combine (r_a cs) (combine (r_b cs) (r_c cs))) ([], ([], []))).
  - apply nth_In. rewrite !combine_length. lia.
  - rewrite combine_nth by (rewrite combine_length; transitivity (r_m cs); [exact A|]; symmetry; transitivity (Nat.min (r_m cs) (r_m cs)); [apply f_equal2; assumption|lia]). rewrite combine_nth by (transitivity (r_m cs); [exact B|symmetry; exact C]). reflexivity.
Qed.
(** Satisfied by the prover's own values, hence by the same witness with any public inputs when no gate mentions them. *)
Definition only_one (cs : r1cs F) : Prop := Forall (fun r : row F => Forall (fun w => forall i, w <> Inst (S i)) (map fst r)) (r_a cs ++ r_b cs ++ r_c cs).
Lemma strict_of cs x : wf_cs cs -> Forall (holds (own cs)) (gates cs) -> r_x cs = 1 :: x -> strict_holds (shape_of cs) x (r_w cs).
Proof.
  intros W H E i I. cbn [shape_of sh_m sh_a sh_b sh_c] in *. rewrite Forall_forall in H. specialize (H _ (gates_nth cs i W I)). unfold holds in H. cbn [fst snd] in H.
  rewrite nth_zeros. rewrite !(lc_ext (asg_of 1 x (r_w cs)) (own cs)) by (intros w _; symmetry; apply own_asg, E). rewrite H. ring.
Qed.
Lemma strict_free cs x x' : wf_cs cs -> Forall (holds (own cs)) (gates cs) -> r_x cs = 1 :: x -> only_one cs -> strict_holds (shape_of cs) x' (r_w cs).
Proof.
  intros W H E O i I. pose proof (strict_of cs x W H E i I) as K. cbn [shape_of sh_m sh_a sh_b sh_c] in *.
  assert (Q : forall r, In r (r_a cs ++ r_b cs ++ r_c cs) -> lc (asg_of 1 x' (r_w cs)) r = lc (asg_of 1 x (r_w cs)) r).
  { intros r IR. apply lc_ext. intros w IW. unfold only_one in O. rewrite Forall_forall in O. specialize (O r IR). rewrite Forall_forall in O. specialize (O w IW). destruct w as [[|j]|j]; [reflexivity|destruct (O j eq_refl)|reflexivity]. }
  destruct W as (LA & LB & LC & _).
  rewrite !Q; [exact K| | |]; rewrite !in_app_iff; [right; right|right; left|left]; apply nth_In; lia.
Qed.
Lemma only_one_of cs : wf_cs cs -> length (r_x cs) = 1%nat -> only_one cs.
Proof.
  intros (_ & _ & _ & _ & R) L. eapply Forall_impl; [|exact R]. intros r H. eapply Forall_impl; [|exact H]. intros [i|j] I; [|discriminate]. cbn in I. intros k E. injection E as ->. lia.
Qed.
Lemma values_ok cs l vs : Forall2 (carries cs) l vs -> values_of cs l = Some vs.
Proof.
  intros H. induction H as [|r v l vs [[O _] V] _ IH]; [reflexivity|]. cbn [values_of]. rewrite (row_evaluate_ok F cs r O), IH, V. reflexivity.
Qed.
End System.
Arguments only_one {F}.

Section One.
Variables (B S : pfield) (b b3 : B) (q p : Z).
Hypothesis OB : field_ok B q.
Hypothesis OS : field_ok S p.
Hypothesis OK : curve_ok B b b3.
Hypothesis no2 : forall x : B, x * x * x + b <> 0.
Notation C := (curve_driver B S b b3 p OK b3).
Notation tr := (transfer S B).
Variable FC : fcircuit B.
Hypothesis SC : step_circuit FC.
Notation zi_of c := (or_else (ac_zi c) (ac_z0 c)).
Notation single c := (or_else (ac_single c) (inst_dummy C 2)).
Notation next c := (next_range B S b b3 p OK c).
Notation input c := (step_input B S b b3 p OK c).
Lemma wf_default (F : Fld) : wf_cs (r1cs_default F).
Proof. repeat split; repeat constructor. Qed.
Lemma default_gates (F : Fld) : gates (r1cs_default F) = []. Proof. reflexivity. Qed.
Lemma same_refl (F : Fld) (cs : r1cs F) : same_shape F cs cs. Proof. unfold same_shape. auto 10. Qed.

Lemma gen_ok (c : aug C) : input c -> exists zn cs x0 x1 U' h, generate FC c (r1cs_default B) = Some (zn, cs) /\ wf_cs cs /\ Forall (holds (own cs)) (gates cs) /\ only_one cs /\
  i_x (single c) = [x0; x1] /\ next c = Some U' /\ rinst_hash U' (ac_i c + 1) (ac_z0 c) (fc_invoke FC (zi_of c)) = Some h /\
  r_x cs = [1; tr x1; tr h] /\ values_of cs zn = Some (fc_invoke FC (zi_of c)).
Proof.
  intros IN. destruct (run_body B S b b3 q p OB OS OK no2 FC c (r1cs_default B) SC (wf_default B) IN) as ([[r1 r2] zn] & cs1 & new & E & W1 & G1 & H1 & x0 & x1 & U' & h & EX & EN & EH & C1 & C2 & CZ).
  assert (X1 : r_x cs1 = [1]).
  { destruct (u_body B S b b3 q p OB OK FC c c SC eq_refl eq_refl eq_refl _ _ (same_refl B (r1cs_default B)) _ _ _ _ E E) as (_ & _ & X & _). exact X. }
  rewrite gen_split. unfold bind at 1. rewrite E.
  pose proof C1 as [[O1 _] V1]. pose proof (push_x_ok B cs1 (tr x1) W1) as (W2 & G2 & _ & _). set (cs2 := snd (push_x B (tr x1) cs1)) in *.
  pose proof (car_up B _ _ _ _ (ex_intro _ _ G2) C2) as C2'. pose proof C2' as [[O2 _] V2]. pose proof (push_x_ok B cs2 (tr h) W2) as (W3 & G3 & _ & _). set (cs3 := snd (push_x B (tr h) cs2)) in *.
  assert (G13 : grow cs1 cs3 ([] ++ [])) by (apply (grow_trans B _ _ _ _ _ G2 G3)).
  exists zn, cs3, x0, x1, U', h. split.
  { unfold fa_inputize, bind, value_of. rewrite (row_evaluate_ok B cs1 r1 O1), V1. change (new_x B (tr x1) cs1) with (Some (fst (push_x B (tr x1) cs1), cs2)). cbv beta iota delta [ret].
    rewrite (row_evaluate_ok B cs2 r2 O2), V2. reflexivity. }
  split; [exact W3|]. split.
  { replace (gates cs3) with (gates cs1) by (symmetry; etransitivity; [apply (proj2 (proj2 G13))|]; apply app_nil_r). apply (grow_holds B cs1 cs3 _ W1 G13).
    replace (gates cs1) with new by (symmetry; etransitivity; [apply (proj2 (proj2 G1))|]; reflexivity). exact H1. }
  split; [exact (only_one_of B cs1 W1 ltac:(rewrite X1; reflexivity))|]. split; [exact EX|]. split; [exact EN|]. split; [exact EH|]. split; [cbn; rewrite X1; reflexivity|].
  apply values_ok. apply (cars_up B cs1 cs3 zn _ (ex_intro _ _ G13) CZ).
Qed.
Lemma gen_shape (c c' : aug C) zn zn' cs cs' : ac_primary c = ac_primary c' -> length (ac_z0 c) = length (ac_z0 c') -> length (zi_of c) = length (zi_of c') ->
  generate FC c (r1cs_default B) = Some (zn, cs) -> generate FC c' (r1cs_default B) = Some (zn', cs') -> shape_of cs = shape_of cs'.
Proof.
  intros EP L0 LI. rewrite !gen_split. unfold bind at 1 4. destruct (gen_body B S b b3 p OK FC c (r1cs_default B)) as [[[[r1 r2] z] d]|] eqn:E; [|discriminate].
  destruct (gen_body B S b b3 p OK FC c' (r1cs_default B)) as [[[[r1' r2'] z'] d']|] eqn:E'; [|discriminate].
  destruct (u_body B S b b3 q p OB OK FC c c' SC EP L0 LI _ _ (same_refl B (r1cs_default B)) _ _ _ _ E E') as (EQ & HS & _ & _). injection EQ as <- <- <-.
  unfold fa_inputize, bind, value_of. destruct (row_evaluate r1 (r_x d) (r_w d)) as [v|]; [|discriminate]. destruct (row_evaluate r1 (r_x d') (r_w d')) as [v'|]; [|discriminate].
  unfold new_x, push_x, ret. cbv beta iota.
  match goal with |- context [row_evaluate r2 (r_x ?e) _] => set (e1 := e) end. destruct (row_evaluate r2 (r_x e1) (r_w e1)) as [u|]; [|discriminate].
  match goal with |- context [row_evaluate r2 (r_x ?e) _] => set (e2 := e) end. destruct (row_evaluate r2 (r_x e2) (r_w e2)) as [u'|]; [|discriminate].
  intros H H'. replace cs with (mkR1cs (r_m e1) (r_a e1) (r_b e1) (r_c e1) (r_x e1 ++ [u]) (r_w e1)) by congruence. replace cs' with (mkR1cs (r_m e2) (r_a e2) (r_b e2) (r_c e2) (r_x e2 ++ [u']) (r_w e2)) by congruence.
  destruct HS as (H1 & H2 & H3 & H4 & H5 & H6). unfold shape_of, e1, e2. cbn [r_m r_a r_b r_c r_x r_w]. rewrite H1, H2, H3, H4, H6, !app_length, H5. reflexivity.
Qed.
(** A run on the parameters of another one. *)
Lemma invocation_ok (D : driver S B) (c c0 : aug C) z0 cs0 ck : input c -> ac_primary c = ac_primary c0 -> length (ac_z0 c0) = 1%nat -> length (zi_of c0) = 1%nat ->
  generate FC c0 (r1cs_default B) = Some (z0, cs0) ->
  exists u w x0 x1 U' h, invocation D FC c (shape_of cs0) ck = Some (u, w, fc_invoke FC (zi_of c)) /\ strict_pair (shape_of cs0) ck u w /\ i_x u = [tr x1; tr h] /\
    i_x (single c) = [x0; x1] /\ next c = Some U' /\ rinst_hash U' (ac_i c + 1) (ac_z0 c) (fc_invoke FC (zi_of c)) = Some h.
Proof.
  intros IN EP L0 LI E0. destruct (gen_ok c IN) as (zn & cs & x0 & x1 & U' & h & E & W & H & O & EX & EN & EH & RX & EV). pose proof IN as (I1 & I2 & _).
  assert (ES : shape_of cs = shape_of cs0) by (apply (gen_shape c c0 zn z0); [exact EP|congruence|congruence|exact E|exact E0]). rewrite <- ES.
  exists (mkInst (commit D ck (r_w cs)) [tr x1; tr h]), (r_w cs), x0, x1, U', h. split.
  { unfold invocation. rewrite E, EV. unfold r1cs_instance_and_witness. cbn [shape_of sh_w sh_m sh_l]. rewrite !Nat.eqb_refl, RX. reflexivity. }
  split; [|auto]. split; [cbn [shape_of sh_l i_x]; rewrite RX; reflexivity|]. split; [reflexivity|]. split; [|reflexivity]. exact (strict_of B cs _ W H RX).
Qed.
End One.

Section Cycle.
Variables (R Q : pfield) (b1 b13 : Q) (b2 b23 : R) (r q : Z).
Hypothesis OR : field_ok R r.
Hypothesis OQ : field_ok Q q.
Hypothesis OK1 : curve_ok Q b1 b13.
Hypothesis OK2 : curve_ok R b2 b23.
Hypothesis no1 : forall x : Q, x * x * x + b1 <> 0.
Hypothesis no2 : forall x : R, x * x * x + b2 <> 0.
Notation E1 := (curve_driver Q R b1 b13 r OK1 b13).
Notation E2 := (curve_driver R Q b2 b23 q OK2 b23).
Hypothesis D1 : driver_ok E1 q r.
Hypothesis D2 : driver_ok E2 r q.
Variables (FC1 : fcircuit R) (FC2 : fcircuit Q).
Hypothesis SC1 : step_circuit FC1.
Hypothesis SC2 : step_circuit FC2.
Variables (ck1 : list (d_pt E1)) (ck2 : list (d_pt E2)).
Notation c10 := (mkAug (C := E2) true 0 [0] None None None None).
Notation c20 := (mkAug (C := E1) false 0 [0] None None None None).

Lemma pow_r : (2 ^ 253 < r < 2 ^ 254)%Z. Proof. exact (cf_p _ _ _ _ _ _ _ (fo_cf _ _ OR)). Qed.
Lemma pow_q : (2 ^ 253 < q < 2 ^ 254)%Z. Proof. exact (cf_p _ _ _ _ _ _ _ (fo_cf _ _ OQ)). Qed.
Lemma zero_r : pf_val R 0 = 0%Z. Proof. exact (cf_zero _ _ _ _ _ _ _ (fo_cf _ _ OR)). Qed.
Lemma zero_q : pf_val Q 0 = 0%Z. Proof. exact (cf_zero _ _ _ _ _ _ _ (fo_cf _ _ OQ)). Qed.
Lemma tr_small_rq (x : R) : (pf_val R x < 2 ^ 253)%Z -> pf_val Q (transfer R Q x) = pf_val R x.
Proof. intros H. rewrite (transfer_val R Q r q OR OQ). apply Z.mod_small. pose proof pow_q. pose proof (cf_range _ _ _ _ _ _ _ (fo_cf _ _ OR) x). lia. Qed.
Lemma tr_small_qr (x : Q) : (pf_val Q x < 2 ^ 253)%Z -> pf_val R (transfer Q R x) = pf_val Q x.
Proof. intros H. rewrite (transfer_val Q R q r OQ OR). apply Z.mod_small. pose proof pow_r. pose proof (cf_range _ _ _ _ _ _ _ (fo_cf _ _ OQ) x). lia. Qed.
Lemma tr_back_r (x : R) : (pf_val R x < 2 ^ 253)%Z -> transfer Q R (transfer R Q x) = x.
Proof. intros H. apply (cf_inj _ _ _ _ _ _ _ (fo_cf _ _ OR)). rewrite tr_small_qr; rewrite tr_small_rq by exact H; [reflexivity|exact H]. Qed.
Lemma tr_back_q (x : Q) : (pf_val Q x < 2 ^ 253)%Z -> transfer R Q (transfer Q R x) = x.
Proof. intros H. apply (cf_inj _ _ _ _ _ _ _ (fo_cf _ _ OQ)). rewrite tr_small_rq; rewrite tr_small_qr by exact H; [reflexivity|exact H]. Qed.
Lemma p252 : (2 ^ 252 < 2 ^ 253)%Z. Proof. reflexivity. Qed.
Lemma p128 : (2 ^ 128 < 2 ^ 253)%Z. Proof. reflexivity. Qed.

Lemma input1_0 (z : list R) : length z = 1%nat -> step_input R Q b2 b23 q OK2 (mkAug (C := E2) true 0 z None None None None).
Proof.
  intros L. pose proof pow_q. pose proof p128. split; [exact L|]. split; [exact L|]. split; [cbn; lia|]. split; [reflexivity|]. split; [cbn; rewrite zero_q; lia|].
  exists 0, 0. split; [reflexivity|]. rewrite zero_q. split; [lia|]. split; [lia|]. intros N. destruct (N eq_refl).
Qed.
Lemma input2_0 (z : list Q) (o : option (inst E1)) x0 x1 : length z = 1%nat -> i_x (or_else o (inst_dummy E1 2)) = [x0; x1] -> (pf_val R x0 < 2 ^ 253)%Z -> (pf_val R x1 < 2 ^ 253)%Z ->
  step_input Q R b1 b13 r OK1 (mkAug (C := E1) false 0 z None o None None).
Proof.
  intros L EX H0 H1. pose proof pow_r. pose proof p128. split; [exact L|]. split; [exact L|]. split; [cbn; lia|]. split; [reflexivity|]. split; [cbn; rewrite zero_r; lia|].
  exists x0, x1. split; [exact EX|]. split; [exact H0|]. split; [exact H1|]. intros N. destruct (N eq_refl).
Qed.
Lemma input2_setup : step_input Q R b1 b13 r OK1 c20.
Proof. apply (input2_0 [0] None 0 0); [reflexivity|reflexivity| |]; rewrite zero_r; reflexivity. Qed.
(** The parameters exist. *)
Lemma setup_ok : exists z1 cs1 z2 cs2, generate FC1 c10 (r1cs_default R) = Some (z1, cs1) /\ generate FC2 c20 (r1cs_default Q) = Some (z2, cs2) /\
  setup FC1 FC2 ck1 ck2 = Some (mkPp (shape_of cs1) (shape_of cs2) ck1 ck2) /\ wf_cs cs1 /\ wf_cs cs2 /\ length (r_x cs1) = 3%nat /\ length (r_x cs2) = 3%nat /\
  Forall (holds (own cs2)) (gates cs2) /\ only_one cs2 /\ exists x, r_x cs2 = 1 :: x.
Proof.
  destruct (gen_ok R Q b2 b23 r q OR OQ OK2 no2 FC1 SC1 c10 (input1_0 [0] eq_refl)) as (z1 & cs1 & x0 & x1 & U1 & h1 & G1 & W1 & H1 & O1 & _ & _ & _ & X1 & _).
  destruct (gen_ok Q R b1 b13 q r OQ OR OK1 no1 FC2 SC2 c20 input2_setup) as (z2 & cs2 & y0 & y1 & U2 & h2 & G2 & W2 & H2 & O2 & _ & _ & _ & X2 & _).
  exists z1, cs1, z2, cs2. split; [exact G1|]. split; [exact G2|]. split; [unfold setup; rewrite G1, G2; reflexivity|]. split; [exact W1|]. split; [exact W2|]. split; [rewrite X1; reflexivity|]. split; [rewrite X2; reflexivity|].
  split; [exact H2|]. split; [exact O2|]. eexists. exact X2.
Qed.

Section Run.
Variables (z1 : list (row R)) (cs1 : r1cs R) (z2 : list (row Q)) (cs2 : r1cs Q).
Hypothesis G1 : generate FC1 c10 (r1cs_default R) = Some (z1, cs1).
Hypothesis G2 : generate FC2 c20 (r1cs_default Q) = Some (z2, cs2).
Hypothesis W1 : wf_cs cs1.
Hypothesis W2 : wf_cs cs2.
Hypothesis L1 : length (r_x cs1) = 3%nat.
Hypothesis L2 : length (r_x cs2) = 3%nat.
Notation sh1 := (shape_of cs1).
Notation sh2 := (shape_of cs2).
Notation pp := (mkPp (E1 := E1) (E2 := E2) sh1 sh2 ck1 ck2).
Lemma l1 : sh_l sh1 = 2%nat. Proof. cbn [shape_of sh_l]. rewrite L1. reflexivity. Qed.
Lemma l2 : sh_l sh2 = 2%nat. Proof. cbn [shape_of sh_l]. rewrite L2. reflexivity. Qed.
Variables (z01 : list R) (z02 : list Q).
Hypothesis LZ1 : length z01 = 1%nat.
Hypothesis LZ2 : length z02 = 1%nat.
Notation F1 := (fun n => iterate n (fc_invoke FC1) z01).
Notation F2 := (fun n => iterate n (fc_invoke FC2) z02).
Lemma len_it1 n : length (F1 n) = 1%nat. Proof. induction n as [|n IH]; [exact LZ1|apply (sc_len _ _ SC1), IH]. Qed.
Lemma len_it2 n : length (F2 n) = 1%nat. Proof. induction n as [|n IH]; [exact LZ2|apply (sc_len _ _ SC2), IH]. Qed.
(** After [k] steps. *)
Definition inv (k : nat) (s : ivc R Q E1 E2) : Prop :=
  iv_z01 s = z01 /\ iv_z02 s = z02 /\ iv_zi1 s = F1 k /\ iv_zi2 s = F2 k /\
  strict_pair sh2 ck2 (iv_us2 s) (iv_ws2 s) /\ relaxed_pair sh1 ck1 (iv_ur1 s) (iv_wr1 s) /\ relaxed_pair sh2 ck2 (iv_ur2 s) (iv_wr2 s) /\
  (pf_val R (ri_u (iv_ur1 s)) <= 1 + Z.of_nat k * 2 ^ 128)%Z /\ (pf_val Q (ri_u (iv_ur2 s)) <= 1 + Z.of_nat k * 2 ^ 128)%Z /\
  exists x0 h, i_x (iv_us2 s) = [x0; transfer R Q h] /\ rinst_hash (iv_ur2 s) (Z.of_nat k) z01 (F1 k) = Some x0 /\ rinst_hash (iv_ur1 s) (Z.of_nat k) z02 (F2 k) = Some h.
Lemma h2_range (U : rinst E2) i a c h : rinst_hash U i a c = Some h -> (pf_val Q h < 2 ^ 253)%Z.
Proof. intros E. pose proof (hash_range R Q b2 b23 r q OR OQ OK2 U i a c h E). pose proof p252. lia. Qed.
Lemma h1_range (U : rinst E1) i a c h : rinst_hash U i a c = Some h -> (pf_val R h < 2 ^ 253)%Z.
Proof. intros E. pose proof (hash_range Q R b1 b13 q r OQ OR OK1 U i a c h E). pose proof p252. lia. Qed.
Lemma init_ok : exists s, init FC1 FC2 pp z01 z02 = Some s /\ iv_i s = 0%Z /\ inv 1 s.
Proof.
  destruct (invocation_ok R Q b2 b23 r q OR OQ OK2 no2 FC1 SC1 E1 (mkAug (C := E2) true 0 z01 None None None None) c10 z1 cs1 ck1 (input1_0 z01 LZ1) eq_refl eq_refl eq_refl G1)
    as (u1 & w1 & x0 & x1 & U' & h & E & SP & EX & ES & EN & EH). cbn [ac_i ac_z0 ac_zi ac_single or_else Z.add] in *.
  unfold next_range in EN. cbn [ac_i ac_primary Z.eqb] in EN. assert (EU : U' = rinst_dummy E2 2) by congruence. subst U'.
  assert (E10 : x1 = 0) by (cbn in ES; congruence). subst x1.
  assert (T0 : (pf_val R (transfer Q R k0) < 2 ^ 253)%Z) by (rewrite tr_small_qr; rewrite zero_q; reflexivity).
  assert (TH : (pf_val R (transfer Q R h) < 2 ^ 253)%Z) by (rewrite tr_small_qr by exact (h2_range _ _ _ _ _ EH); exact (h2_range _ _ _ _ _ EH)).
  destruct (invocation_ok Q R b1 b13 q r OQ OR OK1 no1 FC2 SC2 E2 (mkAug (C := E1) false 0 z02 None (Some u1) None None) c20 z2 cs2 ck2 (input2_0 z02 (Some u1) _ _ LZ2 EX T0 TH) eq_refl eq_refl eq_refl G2)
    as (u2 & w2 & y0 & y1 & U2 & h2 & E' & SP' & EX' & ES' & EN' & EH'). cbn [ac_i ac_z0 ac_zi ac_single or_else Z.add] in *.
  unfold next_range in EN'. cbn [ac_i ac_primary ac_single or_else Z.eqb] in EN'. assert (EU : U2 = from_r1cs_instance u1) by congruence. subst U2.
  rewrite EX in ES'. injection ES' as _ <-. rewrite (tr_back_q h (h2_range _ _ _ _ _ EH)) in EX'.
  eexists. split; [unfold init; cbn [pp_sh1 pp_ck1 pp_sh2 pp_ck2]; rewrite E, E'; reflexivity|]. split; [reflexivity|].
  split; [reflexivity|]. split; [reflexivity|]. split; [reflexivity|]. split; [reflexivity|]. split; [exact SP'|].
  split; [exact (C38_relax Q R E1 q r D1 sh1 ck1 u1 w1 SP)|]. split; [exact (C38_dummy R Q E2 r q D2 sh2 ck2)|].
  split; [cbn; rewrite (cf_one _ _ _ _ _ _ _ (fo_cf _ _ OR)); lia|]. split; [cbn; rewrite zero_q; lia|].
  exists h, h2. split; [exact EX'|]. cbn [iv_ur2 iv_ur1]. rewrite l2. split; [exact EH|exact EH'].
Qed.
Lemma step_ok k s : inv (S k) s -> iv_i s = Z.of_nat (S k) -> (Z.of_nat (S (S k)) < 2 ^ 64)%Z ->
  exists s', prove_step FC1 FC2 pp s = Some (s', proof_of s') /\ iv_i s' = Z.of_nat (S (S k)) /\ inv (S (S k)) s'.
Proof.
  intros (E01 & E02 & EI1 & EI2 & SP2 & RP1 & RP2 & BU1 & BU2 & x0 & h & EX & H2 & H1) EI LT.
  unfold prove_step. destruct (Z.eqb_spec (iv_i s) 0) as [E|_]; [lia|]. cbn [pp_sh1 pp_ck1 pp_sh2 pp_ck2].
  pose proof pow_r as PR. pose proof pow_q as PQ. assert (BIG : (1 + 2 ^ 64 * 2 ^ 128 + 2 ^ 128 < 2 ^ 253)%Z) by reflexivity.
  assert (BK : (1 + Z.of_nat (S k) * 2 ^ 128 + 2 ^ 128 <= 2 ^ 253)%Z).
  { assert ((Z.of_nat (S k) * 2 ^ 128 <= 2 ^ 64 * 2 ^ 128)%Z); [apply Z.mul_le_mono_nonneg_r; lia|lia]. }
  destruct (C38_prove R Q E2 r q D2 sh2 (wf_shape_of Q cs2 W2) ck2 _ _ _ _ RP2 SP2) as (ur2 & wr2 & t2 & EF2 & RP2'). rewrite EF2.
  pose proof (C39_verifier_agrees R Q E2 sh2 ck2 _ _ _ _ _ _ _ EF2) as EV2.
  set (k1 := Z.of_nat (S k)) in *. rewrite E01, E02, EI1, EI2, EI.
  set (c1 := mkAug (C := E2) true k1 z01 (Some (F1 (S k))) (Some (iv_us2 s)) (Some (iv_ur2 s)) (Some t2)).
  assert (IN1 : step_input R Q b2 b23 q OK2 c1).
  { split; [exact LZ1|]. split; [apply (len_it1 (S k))|]. split; [cbn [ac_i c1]; lia|]. split; [etransitivity; [apply RP2|exact l2]|]. split; [cbn [ac_range c1 or_else]; lia|].
    exists x0, (transfer R Q h). split; [exact EX|]. split; [exact (h2_range _ _ _ _ _ H2)|]. split; [rewrite tr_small_rq; exact (h1_range _ _ _ _ _ H1)|]. intros _. exact H2. }
  destruct (invocation_ok R Q b2 b23 r q OR OQ OK2 no2 FC1 SC1 E1 c1 c10 z1 cs1 ck1 IN1 eq_refl eq_refl eq_refl G1) as (u1 & w1 & y0 & y1 & U' & h' & EINV & SPN & EXN & ESN & EN & EHN).
  change (ac_i c1) with k1 in EHN. change (ac_z0 c1) with z01 in EHN. change (or_else (ac_zi c1) z01) with (F1 (S k)) in EHN, EINV. change (or_else (ac_single c1) (inst_dummy E2 2)) with (iv_us2 s) in ESN.
  rewrite EINV. rewrite EX in ESN. injection ESN as _ <-. rewrite (tr_back_r h (h1_range _ _ _ _ _ H1)) in EXN.
  unfold next_range in EN. cbn [ac_i ac_primary ac_single ac_range ac_t or_else c1] in EN. destruct (Z.eqb_spec k1 0) as [X|_]; [lia|]. rewrite EV2 in EN. assert (U' = ur2) by congruence. subst U'. clear EN.
  destruct (C38_prove Q R E1 q r D1 sh1 (wf_shape_of R cs1 W1) ck1 _ _ _ _ RP1 SPN) as (ur1 & wr1 & t1 & EF1 & RP1'). rewrite EF1.
  pose proof (C39_verifier_agrees Q R E1 sh1 ck1 _ _ _ _ _ _ _ EF1) as EV1.
  set (c2 := mkAug (C := E1) false k1 z02 (Some (F2 (S k))) (Some u1) (Some (iv_ur1 s)) (Some t1)).
  assert (IN2 : step_input Q R b1 b13 r OK1 c2).
  { split; [exact LZ2|]. split; [apply (len_it2 (S k))|]. split; [cbn [ac_i c2]; lia|]. split; [etransitivity; [apply RP1|exact l1]|]. split; [cbn [ac_range c2 or_else]; lia|].
    exists h, (transfer Q R h'). split; [exact EXN|]. split; [exact (h1_range _ _ _ _ _ H1)|]. split; [rewrite tr_small_qr; exact (h2_range _ _ _ _ _ EHN)|]. intros _. exact H1. }
  destruct (invocation_ok Q R b1 b13 q r OQ OR OK1 no1 FC2 SC2 E2 c2 c20 z2 cs2 ck2 IN2 eq_refl eq_refl eq_refl G2) as (u2 & w2 & v0 & v1 & U2 & h2 & EINV2 & SPN2 & EXN2 & ESN2 & EN2 & EHN2).
  change (ac_i c2) with k1 in EHN2. change (ac_z0 c2) with z02 in EHN2. change (or_else (ac_zi c2) z02) with (F2 (S k)) in EHN2, EINV2. change (or_else (ac_single c2) (inst_dummy E1 2)) with u1 in ESN2.
  rewrite EINV2. rewrite EXN in ESN2. injection ESN2 as _ <-. rewrite (tr_back_q h' (h2_range _ _ _ _ _ EHN)) in EXN2.
  unfold next_range in EN2. cbn [ac_i ac_primary ac_single ac_range ac_t or_else c2] in EN2. destruct (Z.eqb_spec k1 0) as [X|_]; [lia|]. rewrite EV1 in EN2. assert (U2 = ur1) by congruence. subst U2. clear EN2.
  assert (KS : (k1 + 1)%Z = Z.of_nat (S (S k))) by lia. rewrite KS in *.
  destruct (Z.ltb_spec (Z.of_nat (S (S k))) (2 ^ 64)) as [_|X]; [|lia]. eexists. split; [reflexivity|]. split; [reflexivity|].
  assert (STEP1 : forall (U U' : rinst E1) T u c, fold_verify T U u = Some U' -> (pf_val R (ri_u U) <= c)%Z -> (pf_val R (ri_u U') <= c + 2 ^ 128)%Z).
  { clear - OR OQ PR. intros U U' T u c EF LE. unfold fold_verify in EF. destruct (challenge_total Q R E1 r q OQ OR T U) as (t & ET & RT). rewrite ET in EF. unfold fold_inst in EF.
    destruct (vadd _ _) as [x|]; [|discriminate]. replace (ri_u U') with (ri_u U + t) by (replace U' with (mkRinst (aadd (ri_w U) (d_mul E1 (i_w u) t)) (aadd (ri_e U) (d_mul E1 T t)) (ri_u U + t) x : rinst E1) by congruence; reflexivity).
    rewrite (cf_add _ _ _ _ _ _ _ (fo_cf _ _ OR)). pose proof (cf_range _ _ _ _ _ _ _ (fo_cf _ _ OR) (ri_u U)). pose proof (Z.mod_le (pf_val R (ri_u U) + pf_val R t) r). lia. }
  assert (STEP2 : forall (U U' : rinst E2) T u c, fold_verify T U u = Some U' -> (pf_val Q (ri_u U) <= c)%Z -> (pf_val Q (ri_u U') <= c + 2 ^ 128)%Z).
  { clear - OR OQ PQ. intros U U' T u c EF LE. unfold fold_verify in EF. destruct (challenge_total R Q E2 q r OR OQ T U) as (t & ET & RT). rewrite ET in EF. unfold fold_inst in EF.
    destruct (vadd _ _) as [x|]; [|discriminate]. replace (ri_u U') with (ri_u U + t) by (replace U' with (mkRinst (aadd (ri_w U) (d_mul E2 (i_w u) t)) (aadd (ri_e U) (d_mul E2 T t)) (ri_u U + t) x : rinst E2) by congruence; reflexivity).
    rewrite (cf_add _ _ _ _ _ _ _ (fo_cf _ _ OQ)). pose proof (cf_range _ _ _ _ _ _ _ (fo_cf _ _ OQ) (ri_u U)). pose proof (Z.mod_le (pf_val Q (ri_u U) + pf_val Q t) q). lia. }
  split; [reflexivity|]. split; [reflexivity|]. split; [reflexivity|]. split; [reflexivity|]. split; [exact SPN2|]. split; [exact RP1'|]. split; [exact RP2'|].
  split; [pose proof (STEP1 _ _ _ _ _ EV1 BU1); cbn [iv_ur1]; lia|]. split; [pose proof (STEP2 _ _ _ _ _ EV2 BU2); cbn [iv_ur2]; lia|].
  exists h', h2. split; [exact EXN2|]. split; [exact EHN|exact EHN2].
Qed.
Lemma steps_ok n : (1 <= n)%nat -> (Z.of_nat n < 2 ^ 64)%Z -> exists s0 s, init FC1 FC2 pp z01 z02 = Some s0 /\ prove_steps FC1 FC2 pp s0 n = Some (s, proof_of s) /\ iv_i s = Z.of_nat n /\ inv n s.
Proof.
  destruct init_ok as (s0 & E0 & I0 & V0). induction n as [|[|n] IH]; intros LE LT; [lia| |].
  - exists s0. eexists. split; [exact E0|]. cbn [prove_steps]. unfold prove_step. rewrite I0. cbn [Z.eqb]. split; [reflexivity|]. split; [reflexivity|]. exact V0.
  - destruct (IH ltac:(lia) ltac:(lia)) as (s0' & s & E0' & ES & EI & V). assert (s0' = s0) by congruence. subst s0'. destruct (step_ok n s V EI LT) as (s' & EP & EI' & V').
    exists s0, s'. split; [exact E0|]. split; [|split; [exact EI'|exact V']]. change (prove_steps FC1 FC2 pp s0 (S (S n))) with (match prove_steps FC1 FC2 pp s0 (S n) with Some (s, _) => prove_step FC1 FC2 pp s | None => None end). rewrite ES. exact EP.
Qed.
(** Proofs of such states are accepted. *)
Lemma verify_ok k s : inv k s -> iv_i s = Z.of_nat k -> verify pp (proof_of s) = Some true.
Proof.
  intros (E01 & E02 & EI1 & EI2 & SP2 & RP1 & RP2 & _ & _ & x0 & h & EX & H2 & H1) EI. unfold verify. cbn [proof_of rp_i rp_z01 rp_z02 rp_zi1 rp_zi2 rp_us2 rp_ws2 rp_ur1 rp_wr1 rp_ur2 rp_wr2 pp_sh1 pp_sh2 pp_ck2].
  rewrite E01, E02, EI1, EI2, EI, H1, H2, EX. rewrite (proj1 (proj1 RP1)), (proj1 (proj1 RP2)), l1, l2. cbn [length Nat.eqb negb orb nth_error].
  rewrite (tr_back_r h (h1_range _ _ _ _ _ H1)), !keqb_refl. cbn [negb orb].
  destruct (C41_relaxed_check Q R E1 sh1 (wf_shape_of R cs1 W1) _ _ (proj1 RP1)) as (t1 & -> & T1). rewrite (proj2 T1) by apply RP1.
  destruct (C41_relaxed_check R Q E2 sh2 (wf_shape_of Q cs2 W2) _ _ (proj1 RP2)) as (t2 & -> & T2). rewrite (proj2 T2) by apply RP2.
  destruct (C41_strict_check R Q E2 r q D2 sh2 (wf_shape_of Q cs2 W2) ck2 _ _ (proj1 SP2) (proj1 (proj2 SP2))) as (t3 & -> & T3). rewrite (proj2 T3) by exact SP2. reflexivity.
Qed.
(** So are proofs of anything. *)
Lemma forge_ok (HS : Forall (holds (own cs2)) (gates cs2)) (ON : only_one cs2) x (RX : r_x cs2 = 1 :: x) i a1 a2 c1 c2 :
  exists p, rp_i p = i /\ rp_z01 p = a1 /\ rp_z02 p = a2 /\ rp_zi1 p = c1 /\ rp_zi2 p = c2 /\ verify pp p = Some true.
Proof.
  set (U1 := rinst_dummy E1 2). set (U2 := rinst_dummy E2 2).
  destruct (hash_total R Q E2 q OQ U2 i a1 c1) as (h1 & EH1). destruct (hash_total Q R E1 r OR U1 i a2 c2) as (h2 & EH2).
  exists (mkProof i a1 a2 c1 c2 (mkInst (commit E2 ck2 (r_w cs2)) [h1; transfer R Q h2]) (r_w cs2) U1 (rwit_dummy (sh_w sh1) (sh_m sh1)) U2 (rwit_dummy (sh_w sh2) (sh_m sh2))).
  do 5 (split; [reflexivity|]). unfold verify. cbn [rp_i rp_z01 rp_z02 rp_zi1 rp_zi2 rp_us2 rp_ws2 rp_ur1 rp_wr1 rp_ur2 rp_wr2 pp_sh1 pp_sh2 pp_ck2 i_x length Nat.eqb negb orb nth_error].
  change (length (ri_x U1)) with 2%nat. change (length (ri_x U2)) with 2%nat. cbn [Nat.eqb negb orb]. rewrite EH1, EH2, (tr_back_r h2 (h1_range _ _ _ _ _ EH2)), !keqb_refl. cbn [negb orb].
  pose proof (C38_dummy Q R E1 q r D1 sh1 ck1) as P1. pose proof (C38_dummy R Q E2 r q D2 sh2 ck2) as P2. rewrite l1 in P1. rewrite l2 in P2. fold U1 in P1. fold U2 in P2.
  destruct (C41_relaxed_check Q R E1 sh1 (wf_shape_of R cs1 W1) _ _ (proj1 P1)) as (t1 & -> & T1). rewrite (proj2 T1) by apply P1.
  destruct (C41_relaxed_check R Q E2 sh2 (wf_shape_of Q cs2 W2) _ _ (proj1 P2)) as (t2 & -> & T2). rewrite (proj2 T2) by apply P2.
  match goal with |- is_sat_single _ _ ?u ?w = _ => assert (SP : strict_pair sh2 ck2 u w) end.
  { split; [symmetry; exact l2|]. split; [reflexivity|]. split; [|reflexivity]. exact (strict_free Q cs2 x _ W2 HS RX ON). }
  destruct (C41_strict_check R Q E2 r q D2 sh2 (wf_shape_of Q cs2 W2) ck2 _ _ (proj1 SP) (proj1 (proj2 SP))) as (t3 & -> & T3). rewrite (proj2 T3) by exact SP. reflexivity.
Qed.
End Run.
End Cycle.
