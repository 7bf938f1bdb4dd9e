(** A calculus for honest runs of gadgets: they succeed, their gates hold, their outputs carry known
    values.  (R1csProofs' [computes] with an honest prover and without the soundness half.) *)
From Coq Require Import ZArith List Bool Lia Field.
From Verif Require Import Algebra R1csModel R1csSpec R1csProofs GadgetProofs.
Import ListNotations.
Local Open Scope fld_scope.

Section Run.
Variable F : Fld.
Add Field hrfield : (kth F).
Implicit Types (cs : r1cs F) (x y z r : row F).

Definition above cs cs' : Prop := exists new, grow cs cs' new.
Lemma above_refl cs : above cs cs. Proof. exists []. apply grow_refl. Qed.
Lemma above_trans cs1 cs2 cs3 : above cs1 cs2 -> above cs2 cs3 -> above cs1 cs3.
Proof. intros [n1 G1] [n2 G2]. exists (n1 ++ n2). apply (grow_trans F _ _ _ _ _ G1 G2). Qed.
Definition runs {A} cs (g : G F A) (Q : r1cs F -> A -> Prop) : Prop :=
  exists a cs' new, g cs = Some (a, cs') /\ wf_cs cs' /\ grow cs cs' new /\ Forall (holds (own cs')) new /\ Q cs' a.
Lemma runs_of {A} cs (g : G F A) ok R : computes True cs g ok R -> runs cs g (fun cs' a => ok cs' a /\ R (own cs') a).
Proof.
  intros (a & cs' & new & E & W & Gr & HN & O & S). exists a, cs', new. split; [exact E|]. split; [exact W|]. split; [exact Gr|]. split; [apply (HN I)|].
  split; [exact O|]. apply S; [apply own_one, W|apply (HN I)].
Qed.
Lemma computes_of {A} cs (g : G F A) Q : runs cs g Q -> computes True cs g Q (fun _ _ => True).
Proof.
  intros (a & cs' & new & E & W & Gr & HN & O). exists a, cs', new. split; [exact E|]. split; [exact W|]. split; [exact Gr|]. split; [auto|]. split; [exact O|auto].
Qed.
Lemma runs_bind {A B} cs (g : G F A) (k : A -> G F B) Q1 Q2 : runs cs g Q1 ->
  (forall a cs', wf_cs cs' -> above cs cs' -> Q1 cs' a -> runs cs' (k a) Q2) -> runs cs (bind g k) Q2.
Proof.
  intros H K. apply computes_of in H. assert (C : computes True cs (bind g k) Q2 (fun _ _ => True)).
  { eapply computes_bind; [exact H|]. intros a cs' new W Gr O _. destruct (computes_of _ _ _ (K a cs' W (ex_intro _ new Gr) O)) as (b & cs2 & n2 & E & W2 & G2 & HN & O2 & S).
    exists b, cs2, n2. split; [exact E|]. split; [exact W2|]. split; [exact G2|]. split; [exact HN|]. split; [exact O2|auto]. }
  destruct (runs_of _ _ _ _ C) as (a & cs' & new & E & W & Gr & HN & O & _). exists a, cs', new. split; [exact E|]. split; [exact W|]. split; [exact Gr|]. split; [exact HN|exact O].
Qed.
Lemma runs_ret {A} cs (a : A) (Q : r1cs F -> A -> Prop) : wf_cs cs -> Q cs a -> runs cs (ret a) Q.
Proof. intros W H. exists a, cs, []. split; [reflexivity|]. split; [exact W|]. split; [apply grow_refl|]. split; [constructor|exact H]. Qed.
Lemma runs_weaken {A} cs (g : G F A) (Q Q' : r1cs F -> A -> Prop) : runs cs g Q -> (forall cs' a, wf_cs cs' -> above cs cs' -> Q cs' a -> Q' cs' a) -> runs cs g Q'.
Proof.
  intros (a & cs' & new & E & W & Gr & HN & O) K. exists a, cs', new. split; [exact E|]. split; [exact W|]. split; [exact Gr|]. split; [exact HN|].
  apply K; [exact W|exists new; exact Gr|exact O].
Qed.
Lemma runs_complete {A} cs (g : G F A) Q : wf_cs cs -> runs cs g Q -> complete_at cs g Q.
Proof.
  intros W H. apply computes_of in H. eapply complete_weaken; [apply (computes_complete F True cs g _ _ I W H)|]. intros cs' a _ [O _]. exact O.
Qed.

(** ** Rows and wires with known values *)
Definition carries cs r (v : F) : Prop := row_ok cs r /\ lc (own cs) r = v.
Definition wcar cs (w : wire) (v : F) : Prop := in_range cs w /\ own cs w = v.
Lemma car_up cs cs' r v : above cs cs' -> carries cs r v -> carries cs' r v.
Proof. intros [n Gr] [O V]. split; [apply (grow_ok F _ _ _ _ Gr O)|]. rewrite (grow_lc F _ _ _ _ Gr) by apply O. exact V. Qed.
Lemma wcar_up cs cs' w v : above cs cs' -> wcar cs w v -> wcar cs' w v.
Proof. intros [n Gr] [O V]. split; [apply (grow_range F _ _ _ _ Gr O)|]. rewrite (grow_own F _ _ _ _ Gr O). exact V. Qed.
Lemma cars_up cs cs' l vs : above cs cs' -> Forall2 (carries cs) l vs -> Forall2 (carries cs') l vs.
Proof. intros U H. induction H; constructor; [apply (car_up _ _ _ _ U); assumption|assumption]. Qed.
Lemma wcars_up cs cs' l vs : above cs cs' -> Forall2 (wcar cs) l vs -> Forall2 (wcar cs') l vs.
Proof. intros U H. induction H; constructor; [apply (wcar_up _ _ _ _ U); assumption|assumption]. Qed.
Lemma car_const cs c : wf_cs cs -> carries cs (fa_constant F c) c.
Proof. intros W. split; [apply ok_constant, W|]. apply lc_constant, own_one, W. Qed.
Lemma car_plus cs x y u v : carries cs x u -> carries cs y v -> carries cs (fa_plus F x y) (u + v).
Proof. intros [OX VX] [OY VY]. split; [rok|]. lcs. rewrite VX, VY. reflexivity. Qed.
Lemma car_minus cs x y u v : carries cs x u -> carries cs y v -> carries cs (fa_minus F x y) (u - v).
Proof. intros [OX VX] [OY VY]. split; [rok|]. lcs. rewrite VX, VY. reflexivity. Qed.
Lemma car_scale cs x u c : carries cs x u -> carries cs (row_scale F x c) (u * c).
Proof. intros [OX VX]. split; [rok|]. rewrite lc_scale, VX. reflexivity. Qed.
Lemma car_bit cs w v : wcar cs w v -> carries cs (fa_bit F w) v.
Proof. intros [O V]. split; [unfold fa_bit; rok|]. unfold fa_bit. rewrite lc_wire. exact V. Qed.
Lemma car_eq cs r u v : carries cs r u -> u = v -> carries cs r v. Proof. intros H <-. exact H. Qed.
Lemma wcar_eq cs w u v : wcar cs w u -> u = v -> wcar cs w v. Proof. intros H <-. exact H. Qed.

(** ** Primitive gadgets *)
Lemma run_value {B} cs x v (k : F -> G F B) Q : carries cs x v -> runs cs (k v) Q -> runs cs (bind (value_of x) k) Q.
Proof.
  intros [[O _] V] (a & cs' & new & E & rest). exists a, cs', new. split; [|exact rest]. unfold bind, value_of. rewrite (row_evaluate_ok F cs x O), V. exact E.
Qed.
Lemma run_wire {B} cs w v (k : F -> G F B) Q : wcar cs w v -> runs cs (k v) Q -> runs cs (bind (wire_of w) k) Q.
Proof.
  intros [O V] (a & cs' & new & E & rest). exists a, cs', new. split; [|exact rest]. unfold bind, wire_of. rewrite (wire_value_ok F cs w O), V. exact E.
Qed.
Lemma run_new_w cs v : wf_cs cs -> runs cs (new_w F v) (fun cs' w => wcar cs' w v).
Proof. intros W. eapply runs_weaken; [apply runs_of, new_w_ok, W|]. intros cs' a _ _ [H _]. exact H. Qed.
Lemma run_new_x cs v : wf_cs cs -> runs cs (new_x F v) (fun cs' w => wcar cs' w v).
Proof. intros W. eapply runs_weaken; [apply runs_of, new_x_ok, W|]. intros cs' a _ _ [H _]. exact H. Qed.
Lemma run_witness cs v : wf_cs cs -> runs cs (fa_witness F v) (fun cs' r => carries cs' r v).
Proof. intros W. eapply runs_weaken; [apply runs_of, witness_ok, W|]. intros cs' a _ _ [H _]. exact H. Qed.
Lemma run_instance cs v : wf_cs cs -> runs cs (fa_instance F v) (fun cs' r => carries cs' r v).
Proof. intros W. eapply runs_weaken; [apply runs_of, instance_ok, W|]. intros cs' a _ _ [H _]. exact H. Qed.
Lemma run_mul cs x y u v : wf_cs cs -> carries cs x u -> carries cs y v -> runs cs (fa_mul F x y) (fun cs' z => carries cs' z (u * v)).
Proof.
  intros W HX HY. eapply runs_weaken; [apply runs_of, mul_ok; [exact W|apply HX|apply HY]|]. intros cs' z W' U [O V]. split; [exact O|].
  rewrite V. destruct (car_up _ _ _ _ U HX) as [_ ->]. destruct (car_up _ _ _ _ U HY) as [_ ->]. reflexivity.
Qed.
Lemma run_add cs x y u v : wf_cs cs -> carries cs x u -> carries cs y v -> runs cs (fa_add F x y) (fun cs' z => carries cs' z (u + v)).
Proof.
  intros W HX HY. eapply runs_weaken; [apply runs_of, add_ok; [exact W|apply HX|apply HY]|]. intros cs' z W' U [O V]. split; [exact O|].
  rewrite V. destruct (car_up _ _ _ _ U HX) as [_ ->]. destruct (car_up _ _ _ _ U HY) as [_ ->]. reflexivity.
Qed.
Lemma run_enforce_eq cs x y v : wf_cs cs -> carries cs x v -> carries cs y v -> runs cs (fa_enforce_eq F x y) (fun _ _ => True).
Proof.
  intros W [OX VX] [OY VY]. eapply runs_weaken; [apply runs_of, enforce_eq_ok; [exact W|exact OX|exact OY|congruence]|]. auto.
Qed.
Lemma run_enforce_const cs x v : wf_cs cs -> carries cs x v -> runs cs (fa_enforce_eq_constant F x v) (fun _ _ => True).
Proof. intros W [OX VX]. eapply runs_weaken; [apply runs_of, enforce_const_ok; [exact W|exact OX|intros _; exact VX]|]. auto. Qed.
Lemma run_select cs a b c u v e : wf_cs cs -> carries cs a u -> carries cs b v -> wcar cs c (kbit F e) ->
  runs cs (fa_conditional_select F a b c) (fun cs' z => carries cs' z (if e then u else v)).
Proof.
  intros W HA HB HC. eapply runs_weaken; [apply runs_of, select_ok; [exact W|apply HA|apply HB|apply HC]|]. intros cs' z W' U [O V]. split; [exact O|].
  rewrite V. destruct (car_up _ _ _ _ U HA) as [_ ->]. destruct (car_up _ _ _ _ U HB) as [_ ->]. destruct (wcar_up _ _ _ _ U HC) as [_ ->]. destruct e; cbn [kbit]; ring.
Qed.

(** ** Loops *)
Lemma run_for {A B} (g : A -> G F B) (P : r1cs F -> A -> B -> Prop) : (forall cs cs' a b, above cs cs' -> P cs a b -> P cs' a b) ->
  forall l cs, wf_cs cs -> (forall a cs', In a l -> wf_cs cs' -> above cs cs' -> runs cs' (g a) (fun cs'' b => P cs'' a b)) ->
  runs cs (for_each g l) (fun cs' bs => Forall2 (P cs') l bs).
Proof.
  intros MP. induction l as [|a l IH]; intros cs W H; cbn [for_each].
  - apply runs_ret; [exact W|constructor].
  - eapply runs_bind; [apply (H a cs (or_introl eq_refl) W (above_refl cs))|]. intros b cs1 W1 U1 H1.
    eapply runs_bind; [apply (IH cs1 W1)|].
    + intros a' cs' I' W' U'. apply H; [right; exact I'|exact W'|apply (above_trans _ _ _ U1 U')].
    + intros bs cs2 W2 U2 H2. apply runs_ret; [exact W2|]. constructor; [apply (MP _ _ _ _ U2 H1)|exact H2].
Qed.
(** Folding over a list of rows that stand for the list [vs]: [I] is the invariant, monotone in the system. *)
Lemma run_fold {A V B} (g : B -> A -> G F B) (step : V -> Prop) (I : r1cs F -> list V -> B -> Prop) (R : r1cs F -> A -> V -> Prop) :
  (forall cs cs' a v, above cs cs' -> R cs a v -> R cs' a v) ->
  (forall cs pre a v b, wf_cs cs -> R cs a v -> I cs pre b -> runs cs (g b a) (fun cs' b' => I cs' (pre ++ [v]) b')) ->
  forall l vs cs pre b, wf_cs cs -> Forall2 (R cs) l vs -> I cs pre b -> runs cs (fold_g g b l) (fun cs' b' => I cs' (pre ++ vs) b').
Proof.
  intros MR ST. induction l as [|a l IH]; intros vs cs pre b W H HI; inversion H as [|? v ? vs' HA HL]; subst; cbn [fold_g].
  - apply runs_ret; [exact W|]. rewrite app_nil_r. exact HI.
  - eapply runs_bind; [apply (ST cs pre a v b W HA HI)|]. intros b' cs1 W1 U1 H1. replace (pre ++ v :: vs') with ((pre ++ [v]) ++ vs') by (rewrite <- app_assoc; reflexivity).
    apply IH; [exact W1| |exact H1]. clear - HL U1 MR. induction HL; constructor; [apply (MR _ _ _ _ U1); assumption|assumption].
Qed.
End Run.
Arguments above {F}. Arguments runs {F A}. Arguments carries {F}. Arguments wcar {F}.
(** Move what is known along the growth of the system. *)
Ltac ups U := cbv beta in *; match type of U with @above ?F ?cs ?cs' =>
  repeat match goal with
  | H : carries cs _ _ |- _ => apply (car_up F _ _ _ _ U) in H
  | H : wcar cs _ _ |- _ => apply (wcar_up F _ _ _ _ U) in H
  | H : Forall2 (carries cs) _ _ |- _ => apply (cars_up F _ _ _ _ U) in H
  | H : Forall2 (wcar cs) _ _ |- _ => apply (wcars_up F _ _ _ _ U) in H
  end end.
