(** The gadgets in the calculus of R1csProofs. *)
From Coq Require Import ZArith List Bool Lia Field.
From Verif Require Import Algebra WeierModel R1csModel R1csSpec R1csProofs.
Import ListNotations.
Local Open Scope fld_scope.

(** Solve [NoDup (map fst r)] and [row_ok cs r]. *)
Ltac nd := first
  [ apply nodup_add; nd | apply nodup_sub; nd | apply nodup_scale; nd
  | match goal with |- NoDup (map fst (row_wire _ _)) => rewrite row_wire_eq; cbn; constructor; [intros []|constructor] end
  | match goal with |- NoDup (map fst (fa_constant _ _)) => cbn; constructor; [intros []|constructor] end
  | match goal with H : row_ok _ ?r |- NoDup (map fst ?r) => exact (proj2 H) end ].
Ltac rok := unfold fa_plus, fa_minus, fa_bit; first
  [ assumption
  | apply ok_add; rok | apply ok_sub; rok | apply ok_scale; rok
  | apply ok_constant; assumption | apply ok_const; assumption | apply ok_wire; assumption ].
Ltac lcs := unfold fa_plus, fa_minus, fa_bit;
  repeat first [ rewrite lc_add by nd | rewrite lc_sub by nd | rewrite lc_scale | rewrite lc_wire | rewrite lc_constant by assumption | rewrite lc_const by assumption ].
(** Transport what is known of [cs] along its growth. *)
Ltac lift Gr := cbv beta in *; repeat match type of Gr with grow ?cs ?cs' _ =>
  match goal with
  | H : row_ok cs ?r |- _ => lazymatch goal with _ : row_ok cs' r |- _ => fail | _ => let N := fresh "lf" in pose proof (grow_ok _ _ _ _ _ Gr H) as N end
  | H : in_range cs ?w |- _ => lazymatch goal with _ : in_range cs' w |- _ => fail | _ => let N := fresh "lf" in pose proof (grow_range _ _ _ _ _ Gr H) as N end
  | H : Forall (in_range cs) ?l |- _ => lazymatch goal with _ : Forall (in_range cs') l |- _ => fail | _ => let N := fresh "lf" in pose proof (grow_ranges _ _ _ _ _ Gr H) as N end
  end end.

Section Gad.
Variable F : Fld.
(** Whether the prover is honest. *)
Variable HON : Prop.
Add Field gfield : (kth F).
Implicit Types (cs : r1cs F) (s : asg F) (x y z : row F).

Lemma value_bind {B} cs x (k : F -> G F B) ok R : Forall (in_range cs) (map fst x) -> computes HON cs (k (lc (own cs) x)) ok R -> computes HON cs (bind (value_of x) k) ok R.
Proof. intros H (a & cs' & new & E & rest). exists a, cs', new. split; [|exact rest]. unfold bind, value_of. rewrite (row_evaluate_ok F cs x H). exact E. Qed.
Lemma wire_bind {B} cs w (k : F -> G F B) ok R : in_range cs w -> computes HON cs (k (own cs w)) ok R -> computes HON cs (bind (wire_of w) k) ok R.
Proof. intros H (a & cs' & new & E & rest). exists a, cs', new. split; [|exact rest]. unfold bind, wire_of. rewrite (wire_value_ok F cs w H). exact E. Qed.
Lemma new_w_ok cs v : wf_cs cs -> computes HON cs (new_w F v) (fun cs' w => in_range cs' w /\ own cs' w = v) (fun _ _ => True).
Proof.
  intros W. destruct (push_w_ok F cs v W) as (A & B & C & D). exists (fst (push_w F v cs)), (snd (push_w F v cs)), [].
  split; [reflexivity|]. split; [exact A|]. split; [exact B|]. split; [constructor|]. split; [split; assumption|]. auto.
Qed.
Lemma new_x_ok cs v : wf_cs cs -> computes HON cs (new_x F v) (fun cs' w => in_range cs' w /\ own cs' w = v) (fun _ _ => True).
Proof.
  intros W. destruct (push_x_ok F cs v W) as (A & B & C & D). exists (fst (push_x F v cs)), (snd (push_x F v cs)), [].
  split; [reflexivity|]. split; [exact A|]. split; [exact B|]. split; [constructor|]. split; [split; assumption|]. auto.
Qed.
Lemma witness_ok cs v : wf_cs cs -> computes HON cs (fa_witness F v) (fun cs' z => row_ok cs' z /\ lc (own cs') z = v) (fun _ _ => True).
Proof.
  intros W. unfold fa_witness. eapply computes_bind; [apply new_w_ok, W|]. intros w cs1 n1 W1 G1 [O1 V1] _.
  apply computes_ret; [exact W1| |auto]. split; [apply ok_wire, O1|]. rewrite lc_wire. exact V1.
Qed.
Lemma instance_ok cs v : wf_cs cs -> computes HON cs (fa_instance F v) (fun cs' z => row_ok cs' z /\ lc (own cs') z = v) (fun _ _ => True).
Proof.
  intros W. unfold fa_instance. eapply computes_bind; [apply new_x_ok, W|]. intros w cs1 n1 W1 G1 [O1 V1] _.
  apply computes_ret; [exact W1| |auto]. split; [apply ok_wire, O1|]. rewrite lc_wire. exact V1.
Qed.
Lemma gate_ok cs x y z : wf_cs cs -> row_ok cs x -> row_ok cs y -> row_ok cs z -> (HON -> lc (own cs) x * lc (own cs) y = lc (own cs) z) ->
  computes HON cs (gate (mul_gate F x y z)) (fun _ _ => True) (fun s _ => lc s x * lc s y = lc s z).
Proof.
  intros W [HX _] [HY _] [HZ _] H. destruct (append_ok F cs x y z W HX HY HZ) as (A & B & C). exists tt, (append F cs x y z), [(x, (y, z))].
  split; [reflexivity|]. split; [exact A|]. split; [exact B|]. split; [intros h; constructor; [|constructor]; unfold holds; cbn [fst snd]; rewrite C; exact (H h)|].
  split; [exact I|]. intros s _ HS. inversion HS; subst. assumption.
Qed.
Lemma ok_one cs : wf_cs cs -> row_ok cs (row_one F). Proof. intros W. apply ok_const, W. Qed.
Lemma lc_one s : s ONE = 1 -> lc s (row_one F) = 1. Proof. apply lc_const. Qed.

(** ** field.rs *)
Lemma mul_ok cs x y : wf_cs cs -> row_ok cs x -> row_ok cs y ->
  computes HON cs (fa_mul F x y) (fun cs' z => row_ok cs' z) (fun s z => lc s z = lc s x * lc s y).
Proof.
  intros W HX HY. unfold fa_mul. destruct (as_constant F x) as [c|] eqn:EX; [|destruct (as_constant F y) as [c|] eqn:EY].
  - apply computes_ret; [exact W|rok|]. intros s S. rewrite lc_scale, (as_constant_spec F s x c S EX). ring.
  - apply computes_ret; [exact W|rok|]. intros s S. rewrite lc_scale, (as_constant_spec F s y c S EY). ring.
  - apply value_bind; [apply HX|]. apply value_bind; [apply HY|]. eapply computes_bind; [apply witness_ok, W|]. intros z cs1 n1 W1 G1 [O1 V1] _. lift G1.
    eapply computes_bind; [apply gate_ok; [exact W1|rok|rok|rok|]|].
    + intros h. rewrite V1, !(grow_lc F _ _ _ _ G1) by (apply HX || apply HY). reflexivity.
    + intros u2 cs2 n2 W2 G2 _ H2. lift G2. apply computes_ret; [exact W2|rok|]. intros s S HG _. symmetry. exact HG.
Qed.
Lemma add_ok cs x y : wf_cs cs -> row_ok cs x -> row_ok cs y ->
  computes HON cs (fa_add F x y) (fun cs' z => row_ok cs' z) (fun s z => lc s z = lc s x + lc s y).
Proof.
  intros W HX HY. unfold fa_add. destruct (as_constant F x) as [c|] eqn:EX; [|destruct (as_constant F y) as [c|] eqn:EY].
  - apply computes_ret; [exact W|rok|]. intros s S. rewrite lc_add by (first [nd|apply (ok_const F cs c W)]). rewrite lc_const, (as_constant_spec F s x c S EX) by exact S. ring.
  - apply computes_ret; [exact W|rok|]. intros s S. rewrite lc_add by (first [nd|apply (ok_const F cs c W)]). rewrite lc_const, (as_constant_spec F s y c S EY) by exact S. ring.
  - apply value_bind; [apply HX|]. apply value_bind; [apply HY|]. eapply computes_bind; [apply witness_ok, W|]. intros z cs1 n1 W1 G1 [O1 V1] _. lift G1.
    unfold add_gate. change (gate (fun cs => append F cs (row_add F x y) (row_wire F ONE) z)) with (gate (mul_gate F (row_add F x y) (row_wire F ONE) z)).
    pose proof (one_range F cs1 W1).
    eapply computes_bind; [apply gate_ok; [exact W1|rok|rok|rok|]|].
    + intros h. rewrite V1. lcs. rewrite (own_one F cs1 W1), !(grow_lc F _ _ _ _ G1) by (apply HX || apply HY). ring.
    + intros u2 cs2 n2 W2 G2 _ H2. lift G2. apply computes_ret; [exact W2|rok|]. intros s S HG _. rewrite <- HG. lcs. rewrite S. ring.
Qed.
Lemma enforce_eq_ok cs x y : wf_cs cs -> row_ok cs x -> row_ok cs y -> (HON -> lc (own cs) x = lc (own cs) y) ->
  computes HON cs (fa_enforce_eq F x y) (fun _ _ => True) (fun s _ => lc s x = lc s y).
Proof.
  intros W HX HY H. eapply computes_weaken; [apply gate_ok; [exact W|exact HX|apply ok_one, W|exact HY|]| |].
  - intros h. rewrite lc_one by apply own_one, W. rewrite (H h). ring.
  - auto.
  - intros s [] S E. rewrite lc_one in E by exact S. rewrite <- E. ring.
Qed.
Lemma enforce_const_ok cs x c : wf_cs cs -> row_ok cs x -> (HON -> lc (own cs) x = c) ->
  computes HON cs (fa_enforce_eq_constant F x c) (fun _ _ => True) (fun s _ => lc s x = c).
Proof.
  intros W HX H. pose proof (own_one F cs W). eapply computes_weaken; [apply (enforce_eq_ok cs x (fa_constant F c) W HX); [rok|intros h; lcs; exact (H h)]| |]; [auto|].
  intros s [] S E. rewrite E. lcs. reflexivity.
Qed.
Lemma select_ok cs a b c : wf_cs cs -> row_ok cs a -> row_ok cs b -> in_range cs c ->
  computes HON cs (fa_conditional_select F a b c) (fun cs' z => row_ok cs' z) (fun s z => lc s z = s c * lc s a + (1 - s c) * lc s b).
Proof.
  intros W HA HB HC. unfold fa_conditional_select. eapply computes_bind; [apply mul_ok; [exact W|rok|rok]|]. intros sa cs1 n1 W1 G1 O1 _. lift G1.
  eapply computes_bind; [apply mul_ok; [exact W1|rok|unfold fa_minus; rok]|]. intros sb cs2 n2 W2 G2 O2 _. lift G2.
  apply computes_ret; [exact W2|unfold fa_plus; rok|]. intros s S H1 H2. lcs. rewrite H1, H2. lcs. ring.
Qed.
Lemma cond_enforce_ok cs x y c : wf_cs cs -> row_ok cs x -> row_ok cs y -> in_range cs c -> (HON -> own cs c = 0 \/ lc (own cs) x = lc (own cs) y) ->
  computes HON cs (fa_conditional_enforce_equal F x y c) (fun _ _ => True) (fun s _ => s c = 0 \/ lc s x = lc s y).
Proof.
  intros W HX HY HC H. unfold fa_conditional_enforce_equal. eapply computes_bind; [apply mul_ok; [exact W|unfold fa_minus; rok|unfold fa_bit; rok]|].
  intros m cs1 n1 W1 G1 O1 R1. eapply computes_weaken; [apply enforce_const_ok; [exact W1|exact O1|]| |].
  - intros h. rewrite (R1 h). lcs. rewrite (grow_own F _ _ _ _ G1 HC), !(grow_lc F _ _ _ _ G1) by (apply HX || apply HY). destruct (H h) as [-> | ->]; ring.
  - auto.
  - intros s [] S E H1. rewrite E in H1. revert H1. lcs. intros H1. symmetry in H1. apply (kmul_eq0 F) in H1 as [H1|H1]; [right; apply (ksub_eq0 F), H1|left; exact H1].
Qed.
(** Recomposition of bits: the weighted sum, most significant first. *)
Fixpoint bits_value (s : asg F) (bits : list wire) : F :=
  match bits with [] => 0 | b :: l => s b * kpow (1 + 1) (length l) + bits_value s l end.
Lemma bits_value_snoc s l b : bits_value s (l ++ [b]) = (1 + 1) * bits_value s l + s b.
Proof.
  induction l as [|a l IH]; cbn [app bits_value length]; [cbn; ring|]. rewrite IH, app_length. cbn [length]. rewrite Nat.add_1_r. cbn [kpow]. ring.
Qed.
Lemma bits_sum_ok cs bits : wf_cs cs -> Forall (in_range cs) bits ->
  computes HON cs (fa_bits_sum F bits) (fun cs' z => row_ok cs' z) (fun s z => lc s z = bits_value s bits).
Proof.
  intros W HB. unfold fa_bits_sum.
  assert (GG : forall l cs acc f, wf_cs cs -> Forall (in_range cs) l -> row_ok cs acc ->
    computes HON cs (fold_g (fun '(acc, f) bit => bind (fa_mul F (fa_constant F f) (fa_bit F bit)) (fun t => ret (fa_plus F acc t, kdbl f))) (acc, f) l)
      (fun cs' p => row_ok cs' (fst p)) (fun s p => lc s (fst p) = lc s acc + f * bits_value s (rev l))).
  { clear. induction l as [|b l IH]; intros cs acc f W HB HA; cbn [fold_g].
    - apply computes_ret; [exact W|exact HA|]. intros s _. cbn [fst rev bits_value]. ring.
    - inversion HB as [|? ? Hb HL]; subst. eapply computes_bind with (R1 := fun s p => lc s (fst p) = lc s acc + f * s b) (ok1 := fun cs' p => row_ok cs' (fst p) /\ snd p = kdbl f).
      + eapply computes_bind; [apply mul_ok; [exact W|rok|unfold fa_bit; rok]|]. intros t cs1 n1 W1 G1 O1 _. lift G1.
        apply computes_ret; [exact W1|cbn [fst snd]; split; [unfold fa_plus; rok|reflexivity]|]. intros s S H1. cbn [fst snd]. lcs. rewrite H1. lcs. ring.
      + intros [acc1 f1] cs1 n1 W1 G1 [O1 E1] _. cbn [fst snd] in *. lift G1. subst f1.
        eapply computes_weaken; [apply IH; assumption| |]; [auto|]. intros s [acc2 f2] S E H. cbn [fst] in *. rewrite E, H. cbn [rev].
        rewrite bits_value_snoc. unfold kdbl. ring. }
  eapply computes_bind; [apply GG; [exact W|apply Forall_rev, HB|rok]|]. intros p cs1 n1 W1 G1 O1 _.
  apply computes_ret; [exact W1|exact O1|]. intros s S E. rewrite E, rev_involutive. lcs. ring.
Qed.
Lemma enforce_bits_ok cs x bits : wf_cs cs -> row_ok cs x -> Forall (in_range cs) bits -> (HON -> lc (own cs) x = bits_value (own cs) bits) ->
  computes HON cs (fa_enforce_eq_bits F x bits) (fun _ _ => True) (fun s _ => lc s x = bits_value s bits).
Proof.
  intros W HX HB H. unfold fa_enforce_eq_bits. eapply computes_bind; [apply bits_sum_ok; assumption|]. intros z cs1 n1 W1 G1 O1 R1. lift G1.
  assert (EB : bits_value (own cs1) bits = bits_value (own cs) bits).
  { clear - G1 HB. induction bits as [|b l IH]; [reflexivity|]. inversion HB; subst. cbn [bits_value]. rewrite IH by assumption. rewrite (grow_own F _ _ _ _ G1) by assumption. reflexivity. }
  eapply computes_weaken; [apply enforce_eq_ok; [exact W1|rok|rok|]| |].
  - intros h. rewrite (R1 h), EB, <- (H h). apply (grow_lc F _ _ _ _ G1), HX.
  - auto.
  - intros s [] S E H1. rewrite E. exact H1.
Qed.
(** [is_neq]: the honest result; in any assignment the result is zero when the operands agree. *)
Lemma bin_not_ok cs b : wf_cs cs -> in_range cs b -> computes HON cs (bin_not F b) (fun cs' w => in_range cs' w /\ own cs' w = if keqb (own cs b) 1 then 0 else 1) (fun _ _ => True).
Proof. intros W H. unfold bin_not. apply wire_bind; [exact H|]. apply new_w_ok, W. Qed.
Lemma bin_and_ok cs a b : wf_cs cs -> in_range cs a -> in_range cs b ->
  computes HON cs (bin_and F a b) (fun cs' w => in_range cs' w /\ own cs' w = if keqb (own cs a) 1 && keqb (own cs b) 1 then 1 else 0) (fun _ _ => True).
Proof.
  intros W HA HB. unfold bin_and. apply wire_bind; [exact HA|]. destruct (keqb (own cs a) 1); cbn [andb]; [apply wire_bind; [exact HB|]|]; apply new_w_ok, W.
Qed.
Lemma is_neq_ok cs x y : wf_cs cs -> row_ok cs x -> row_ok cs y ->
  computes HON cs (fa_is_neq F x y) (fun cs' w => in_range cs' w /\ own cs' w = kbit F (negb (keqb (lc (own cs) x) (lc (own cs) y))))
    (fun s w => lc s x = lc s y -> s w = 0).
Proof.
  intros W HX HY. unfold fa_is_neq. apply value_bind; [apply HX|]. apply value_bind; [apply HY|].
  set (xv := lc (own cs) x). set (yv := lc (own cs) y).
  eapply computes_bind; [apply new_w_ok, W|]. intros out cs1 n1 W1 G1 [O1 V1] _. lift G1.
  assert (KM : computes HON cs1 (if keqb xv yv then fa_witness F 1 else match kinvert (xv - yv) with Some i => fa_witness F i | None => panic end)
    (fun cs' z => row_ok cs' z /\ (xv - yv) * lc (own cs') z = kbit F (negb (keqb xv yv))) (fun _ _ => True)).
  { destruct (keqb_spec F xv yv) as [E|E]; cbn [negb kbit].
    - eapply computes_weaken; [apply witness_ok, W1| |]; [|auto]. intros cs' nw z _ _ [A B] _. split; [exact A|]. rewrite B, E. ring.
    - unfold kinvert, kis0. destruct (keqb_spec F (xv - yv) 0) as [D|D]; [destruct E; apply (ksub_eq0 F), D|].
      eapply computes_weaken; [apply witness_ok, W1| |]; [|auto]. intros cs' nw z _ _ [A B] _. split; [exact A|]. rewrite B.
      rewrite <- (kinv_l F _ D). ring. }
  eapply computes_bind; [exact KM|]. intros mu cs2 n2 W2 G2 [O2 V2] _. lift G2.
  eapply computes_bind; [apply mul_ok; [exact W2|unfold fa_minus; rok|rok]|]. intros m cs3 n3 W3 G3 O3 R3. lift G3.
  assert (GG : grow cs cs3 (n1 ++ n2 ++ n3)) by (repeat (eapply grow_trans; [eassumption|]); eassumption).
  assert (G13 : grow cs1 cs3 (n2 ++ n3)) by (eapply grow_trans; eassumption).
  assert (EX : lc (own cs3) x = xv) by (apply (grow_lc F _ _ _ _ GG), HX). assert (EY : lc (own cs3) y = yv) by (apply (grow_lc F _ _ _ _ GG), HY).
  assert (EM : lc (own cs3) mu = lc (own cs2) mu) by (apply (grow_lc F _ _ _ _ G3), O2).
  assert (EO : own cs3 out = kbit F (negb (keqb xv yv))) by (rewrite (grow_own F _ _ _ _ G13 O1); exact V1).
  eapply computes_bind; [apply enforce_eq_ok; [exact W3|rok|unfold fa_bit; rok|]|].
  { intros h. rewrite (R3 h). lcs. rewrite EX, EY, EM, EO. exact V2. }
  intros [] cs4 n4 W4 G4 _ _. lift G4.
  eapply computes_bind; [apply bin_not_ok; [exact W4|assumption]|]. intros nout cs5 n5 W5 G5 [O5 V5] _. lift G5.
  eapply computes_bind; [apply mul_ok; [exact W5|unfold fa_minus; rok|unfold fa_bit; rok]|]. intros m2 cs6 n6 W6 G6 O6 R6. lift G6.
  assert (G36 : grow cs3 cs6 (n4 ++ n5 ++ n6)) by (repeat (eapply grow_trans; [eassumption|]); eassumption).
  eapply computes_bind; [apply enforce_eq_ok; [exact W6|rok|rok|]|].
  { intros h. rewrite (R6 h). pose proof (own_one F cs6 W6). lcs. rewrite !(grow_lc F _ _ _ _ G36) by (apply (grow_ok F _ _ _ _ GG HX) || apply (grow_ok F _ _ _ _ GG HY)).
    rewrite EX, EY, (grow_own F _ _ _ _ G6 O5), V5, (grow_own F _ _ _ _ G4) by assumption. rewrite EO.
    destruct (keqb_spec F xv yv) as [->|E]; cbn [negb kbit]; [ring|]. rewrite keqb_refl. ring. }
  intros [] cs7 n7 W7 G7 _ _. lift G7. apply computes_ret; [exact W7| |].
  - split; [assumption|]. rewrite (grow_own F _ _ _ _ G7), (grow_own F _ _ _ _ G36) by assumption. exact EO.
  - intros s S H7 H6 _ H4 H3 _ _ E. revert H4. rewrite H3. lcs. intros H4. rewrite <- H4, E. ring.
Qed.
End Gad.
