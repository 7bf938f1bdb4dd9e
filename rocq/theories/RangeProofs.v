(** Range checks and bit decomposition. *)
From Coq Require Import ZArith List Bool Lia Field.
From Verif Require Import Algebra WeierModel R1csModel R1csSpec R1csProofs GadgetProofs.
Import ListNotations.
Local Open Scope fld_scope.

Lemma bval_range l : (0 <= bval l < 2 ^ Z.of_nat (length l))%Z.
Proof.
  induction l as [|b l IH]; [cbn; lia|]. cbn [bval length]. rewrite Nat2Z.inj_succ, Z.pow_succ_r by lia. destruct b; cbn [Z.b2z]; lia.
Qed.
Lemma bval_app l r : bval (l ++ r) = (bval l * 2 ^ Z.of_nat (length r) + bval r)%Z.
Proof.
  induction l as [|b l IH]; [cbn; lia|]. cbn [app bval]. rewrite IH, app_length, Nat2Z.inj_add, Z.pow_add_r by lia. ring.
Qed.
Lemma skip_zeros_spec l : exists k, l = repeat false k ++ skip_zeros l /\ (skip_zeros l = [] \/ exists r, skip_zeros l = true :: r).
Proof.
  induction l as [|[] l IH]; [exists 0%nat; cbn; auto|exists 0%nat; cbn; split; [reflexivity|right; eauto]|].
  destruct IH as (k & E & D). exists (S k). cbn. split; [rewrite <- E; reflexivity|exact D].
Qed.
Lemma bval_zeros k : bval (repeat false k) = 0%Z. Proof. induction k as [|k IH]; cbn; [reflexivity|]. exact IH. Qed.
Lemma bval_skip l : bval (skip_zeros l) = bval l.
Proof. destruct (skip_zeros_spec l) as (k & E & _). rewrite E at 2. rewrite bval_app, bval_zeros. lia. Qed.
Lemma bval_inj l : forall r, length l = length r -> bval l = bval r -> l = r.
Proof.
  induction l as [|a l IH]; intros [|b r] L E; try discriminate; [reflexivity|]. cbn [bval] in E. assert (LL : length l = length r) by (cbn in L; congruence).
  pose proof (bval_range l). pose proof (bval_range r). rewrite LL in *. destruct a, b; cbn [Z.b2z] in E; try lia; f_equal; apply IH; try exact LL; lia.
Qed.
Lemma last_zero_spec l : forall i, match last_zero i l with
  | None => forall j, nth_error l j <> Some false
  | Some t => (i <= t < i + length l)%nat /\ forall j, nth_error l j = Some false -> (i + j <= t)%nat
  end.
Proof.
  induction l as [|b l IH]; intros i; cbn [last_zero]; [intros [|j]; discriminate|]. specialize (IH (S i)). destruct (last_zero (S i) l) as [t|].
  - destruct IH as [A B]. cbn [length]. split; [lia|]. intros [|j] H; [lia|]. cbn in H. apply B in H. lia.
  - destruct b; [intros [|j]; cbn; [discriminate|apply IH]|]. cbn [length]. split; [lia|]. intros [|j] H; [lia|]. cbn in H. destruct (IH j H).
Qed.

Lemma Forall2_len {A B} (R : A -> B -> Prop) l r : Forall2 R l r -> length l = length r.
Proof. induction 1; cbn; congruence. Qed.
Section Range.
Variable F : Fld.
Variable HON : Prop.
Add Field rgfield : (kth F).
Implicit Types (cs : r1cs F) (s : asg F) (acs : list (wire * bool)).

(** ** The relation the gates express *)
Fixpoint rc_rel s (P : F) acs : Prop :=
  match acs with
  | [] => True
  | (a, c) :: acs => (if c then (s a - 1) * s a = 0 else (1 - s a - P) * s a = 0) /\ rc_rel s (if c then P * s a else P) acs
  end.
Lemma rc_rel_sound s : forall acs P, P = 0 \/ P = 1 -> rc_rel s P acs ->
  exists bs, is_bits s (map fst acs) bs /\ (P = 1 -> (bval bs <= bval (map snd acs))%Z).
Proof.
  induction acs as [|[a c] acs IH]; intros P HP H; [exists []; split; [constructor|reflexivity]|]. cbn [rc_rel] in H. destruct H as [H1 H2].
  assert (HA : s a = 0 \/ s a = 1).
  { destruct c; [apply (kmul_eq0 F) in H1 as [E|E]; [right; apply (ksub_eq0 F), E|left; exact E]|].
    apply (kmul_eq0 F) in H1 as [E|E]; [|left; exact E]. destruct HP as [-> | ->]; [right|left].
    - transitivity (1 - (1 - s a - 0)); [ring|rewrite E; ring].
    - transitivity (- (1 - s a - 1)); [ring|rewrite E; ring]. }
  destruct (IH (if c then P * s a else P)) as (bs & B & L); [|exact H2|].
  { destruct c; [|exact HP]. destruct HP as [-> | ->]; [left; ring|]. destruct HA as [-> | ->]; [left|right]; ring. }
  destruct HA as [E|E].
  - exists (false :: bs). split; [constructor; [exact E|exact B]|]. intros P1. cbn [map snd bval]. pose proof (bval_range bs) as R1.
    assert (LB : length bs = length (map snd acs)) by (rewrite <- (Forall2_len _ _ _ B), !map_length; reflexivity). rewrite LB in *.
    pose proof (bval_range (map snd acs)). destruct c; cbn [Z.b2z]; [lia|]. specialize (L P1). lia.
  - exists (true :: bs). split; [constructor; [exact E|exact B]|]. intros P1. cbn [map snd bval].
    assert (LB : length bs = length (map snd acs)) by (rewrite <- (Forall2_len _ _ _ B), !map_length; reflexivity). rewrite LB.
    destruct c; cbn [Z.b2z].
    + assert (P2 : P * s a = 1) by (rewrite P1, E; ring). specialize (L P2). lia.
    + exfalso. rewrite P1, E in H1. apply (k1_neq0 F). transitivity (- ((1 - 1 - 1) * 1) : F); [ring|rewrite H1; ring].
Qed.
Lemma rc_rel_complete s : forall acs P bs, is_bits s (map fst acs) bs -> P = 0 \/ (P = 1 /\ (bval bs <= bval (map snd acs))%Z) -> rc_rel s P acs.
Proof.
  induction acs as [|[a c] acs IH]; intros P bs B HP; [exact I|]. cbn [map fst] in B. inversion B as [|? b ? bs' E B']; subst. cbn [rc_rel].
  assert (LB : length bs' = length (map snd acs)) by (rewrite <- (Forall2_len _ _ _ B'), !map_length; reflexivity).
  pose proof (bval_range bs') as R1. pose proof (bval_range (map snd acs)) as R2. cbn [map snd bval] in HP. rewrite LB in *. rewrite E. split.
  - destruct c, b; cbn [kbit]; try ring. destruct HP as [-> | [-> HP]]; [ring|]. cbn [Z.b2z] in HP. lia.
  - apply (IH _ bs' B'). destruct HP as [-> | [-> HP]]; [left; destruct c; ring|]. destruct c, b; cbn [kbit Z.b2z] in *.
    + right. split; [ring|lia].
    + left. ring.
    + lia.
    + right. split; [reflexivity|lia].
Qed.
(** ** Products *)
Fixpoint pr s acs : F := match acs with [] => 1 | (a, c) :: acs => (if c then s a else 1) * pr s acs end.
Lemma products_ok : forall acs cs p l, wf_cs cs -> Forall (in_range cs) (map fst acs) -> row_ok cs l ->
  computes HON cs (rc_products F p l acs)
    (fun cs' q => exists q', q = p ++ q' /\ length q' = length acs /\ Forall (row_ok cs') q')
    (fun s q => exists q', q = p ++ q' /\ length q' = length acs /\
      forall j, (j < length acs)%nat -> lc s (nth j q' []) = lc s l * pr s (firstn (S j) acs)).
Proof.
  induction acs as [|[a c] acs IH]; intros cs p l W HA HL; cbn [rc_products].
  - apply computes_ret; [exact W| |].
    + exists []. rewrite app_nil_r. repeat split. constructor.
    + intros s _. exists []. rewrite app_nil_r. repeat split. cbn. intros j Hj. lia.
  - cbn [map fst] in HA. inversion HA as [|? ? Ha HA']; subst. destruct c.
    + eapply computes_bind; [apply mul_ok; [exact W|rok|rok]|]. intros n cs1 n1 W1 G1 O1 _. lift G1.
      eapply computes_weaken; [apply (IH cs1 (p ++ [n]) n W1); assumption| |].
      * intros cs' nw q W' G' (q' & E & L & O) _. lift G'. exists (n :: q'). rewrite E, <- app_assoc. split; [reflexivity|]. split; [cbn; rewrite L; reflexivity|].
        constructor; assumption.
      * intros s q S (q' & E & L & H) H1. exists (n :: q'). rewrite E, <- app_assoc. split; [reflexivity|]. split; [cbn; rewrite L; reflexivity|].
        intros [|j] Hj; cbn [nth firstn pr]; [rewrite H1; lcs; ring|]. rewrite H by (cbn in Hj; lia). rewrite H1. lcs. cbn [firstn]. ring.
    + eapply computes_weaken; [apply (IH cs (p ++ [l]) l W); assumption| |].
      * intros cs' nw q W' G' (q' & E & L & O) _. lift G'. exists (l :: q'). rewrite E, <- app_assoc. split; [reflexivity|]. split; [cbn; rewrite L; reflexivity|].
        constructor; assumption.
      * intros s q S (q' & E & L & H). exists (l :: q'). rewrite E, <- app_assoc. split; [reflexivity|]. split; [cbn; rewrite L; reflexivity|].
        intros [|j] Hj; cbn [nth firstn pr]; [ring|]. rewrite H by (cbn in Hj; lia). cbn [firstn]. ring.
Qed.
(** ** The boolean gates *)
Fixpoint rc_idx s (i : nat) (p : list (row F)) acs : Prop :=
  match acs with
  | [] => True
  | (a, c) :: acs => (if c then (s a - 1) * s a = 0 else (1 - s a - lc s (nth (i - 1) p [])) * s a = 0) /\ rc_idx s (S i) p acs
  end.
Definition idx_ok (i : nat) (p : list (row F)) acs : Prop := forall j, nth_error (map snd acs) j = Some false -> (0 < i + j <= length p)%nat.
Lemma rc_idx_own cs cs' new : grow cs cs' new -> forall acs i p, Forall (in_range cs) (map fst acs) -> Forall (row_ok cs) p -> rc_idx (own cs) i p acs -> rc_idx (own cs') i p acs.
Proof.
  intros Gr. induction acs as [|[a c] acs IH]; intros i p HA HP H; [exact I|]. cbn [rc_idx map fst] in *. inversion HA as [|? ? Hx HA2]; subst. destruct H as [H1 H2].
  split; [|apply IH; assumption]. rewrite (grow_own F _ _ _ _ Gr) by assumption. destruct c; [exact H1|].
  rewrite (grow_lc F _ _ _ _ Gr); [exact H1|]. destruct (Nat.lt_ge_cases (i - 1) (length p)) as [L|L].
  - rewrite Forall_forall in HP. apply HP. apply nth_In, L.
  - rewrite nth_overflow by exact L. constructor.
Qed.
Lemma bools_ok : forall acs cs i p, wf_cs cs -> Forall (in_range cs) (map fst acs) -> Forall (row_ok cs) p -> idx_ok i p acs -> (HON -> rc_idx (own cs) i p acs) ->
  computes HON cs (rc_bools F i p acs) (fun _ _ => True) (fun s _ => rc_idx s i p acs).
Proof.
  induction acs as [|[a c] acs IH]; intros cs i p W HA HP HI HH; cbn [rc_bools].
  - apply computes_ret; [exact W|exact I|]. intros; exact I.
  - cbn [map fst] in HA. inversion HA as [|? ? Ha HA']; subst. cbn [rc_idx] in HH.
    assert (ST : computes HON cs (if c then bind (fa_mul F (fa_minus F (fa_bit F a) (fa_constant F 1)) (fa_bit F a)) (fun b => fa_enforce_eq F b (fa_constant F 0))
           else match i with O => panic | S j => match nth_error p j with Some pj =>
              bind (fa_mul F (fa_minus F (fa_minus F (fa_constant F 1) (fa_bit F a)) pj) (fa_bit F a)) (fun b => fa_enforce_eq F b (fa_constant F 0)) | None => panic end end)
         (fun _ _ => True) (fun s _ => if c then (s a - 1) * s a = 0 else (1 - s a - lc s (nth (i - 1) p [])) * s a = 0)).
    { pose proof (own_one F cs W) as OO. destruct c.
      - eapply computes_bind; [apply mul_ok; [exact W|rok|rok]|]. intros b cs1 n1 W1 G1 O1 R1. lift G1. pose proof (own_one F cs1 W1).
        eapply computes_weaken; [apply enforce_eq_ok; [exact W1|rok|rok|]| |].
        + intros h. rewrite (R1 h). lcs. rewrite (grow_own F _ _ _ _ G1 Ha). exact (proj1 (HH h)).
        + auto.
        + intros s u S E HM. rewrite E in HM. revert HM. lcs. intros HM. symmetry. exact HM.
      - pose proof (HI 0%nat eq_refl) as HJ. destruct i as [|j]; [lia|]. rewrite Nat.add_0_r in HJ.
        assert (EN : nth_error p j = Some (nth j p [])) by (apply nth_error_nth'; lia). rewrite EN. replace (S j - 1)%nat with j in HH |- * by lia.
        assert (HPJ : row_ok cs (nth j p [])) by (rewrite Forall_forall in HP; apply HP, nth_In; lia).
        eapply computes_bind; [apply mul_ok; [exact W|rok|rok]|]. intros b cs1 n1 W1 G1 O1 R1. lift G1. pose proof (own_one F cs1 W1).
        eapply computes_weaken; [apply enforce_eq_ok; [exact W1|rok|rok|]| |].
        + intros h. rewrite (R1 h). lcs. rewrite (grow_own F _ _ _ _ G1 Ha), (grow_lc F _ _ _ _ G1) by apply HPJ. exact (proj1 (HH h)).
        + auto.
        + intros s u S E HM. rewrite E in HM. revert HM. lcs. intros HM. symmetry. exact HM. }
    eapply computes_bind; [exact ST|]. intros u cs1 n1 W1 G1 _ _. lift G1.
    eapply computes_weaken; [apply (IH cs1 (S i) p W1); [assumption| | |]| |].
    + eapply Forall_impl; [|exact HP]. intros r. apply (grow_ok F _ _ _ _ G1).
    + intros j Hj. specialize (HI (S j) Hj). lia.
    + intros h. apply (rc_idx_own _ _ _ G1); try assumption. exact (proj2 (HH h)).
    + auto.
    + intros s u1 S HR H. cbn [rc_idx]. split; [exact H|exact HR].
Qed.
(** Index form and recursive form agree when the products are right. *)
Lemma rc_idx_rel s p : forall acs i P, (forall j, nth_error (map snd acs) j = Some false -> lc s (nth (i + j - 1) p []) = P * pr s (firstn j acs)) ->
  (rc_idx s i p acs <-> rc_rel s P acs).
Proof.
  induction acs as [|[a c] acs IH]; intros i P H; [tauto|]. cbn [rc_idx rc_rel].
  assert (E : rc_idx s (S i) p acs <-> rc_rel s (if c then P * s a else P) acs).
  { apply IH. intros j Hj. specialize (H (S j) Hj). cbn [firstn pr] in H. replace (S i + j - 1)%nat with (i + S j - 1)%nat by lia. rewrite H. destruct c; ring. }
  destruct c; [tauto|]. pose proof (H 0%nat eq_refl) as H0. rewrite Nat.add_0_r in H0. cbn [firstn pr] in H0. unfold row in *. rewrite H0. replace (P * 1) with P by ring. tauto.
Qed.
Lemma combine_fst {A B} (l : list A) (r : list B) : length l = length r -> map fst (combine l r) = l.
Proof. revert r. induction l as [|a l IH]; intros [|b r] L; try discriminate; [reflexivity|]. cbn. rewrite IH by (cbn in L; congruence). reflexivity. Qed.
Lemma combine_snd {A B} (l : list A) (r : list B) : length l = length r -> map snd (combine l r) = r.
Proof. revert r. induction l as [|a l IH]; intros [|b r] L; try discriminate; [reflexivity|]. cbn. rewrite IH by (cbn in L; congruence). reflexivity. Qed.
Lemma is_bits_app s l r bl br : is_bits s l bl -> is_bits s r br -> is_bits s (l ++ r) (bl ++ br).
Proof. apply Forall2_app. Qed.
Lemma is_bits_own cs cs' new ws bs : grow cs cs' new -> Forall (in_range cs) ws -> is_bits (own cs) ws bs -> is_bits (own cs') ws bs.
Proof.
  intros Gr. revert bs. induction ws as [|w ws IH]; intros bs HW B; inversion B; subst; [constructor|]. inversion HW; subst.
  constructor; [rewrite (grow_own F _ _ _ _ Gr) by assumption; assumption|apply IH; assumption].
Qed.
(** The part after the leading zeros. *)
Lemma range_tail_ok cs a0 arest crest : wf_cs cs -> Forall (in_range cs) (a0 :: arest) -> length arest = length crest ->
  (HON -> exists bs, is_bits (own cs) (a0 :: arest) bs /\ (bval bs <= bval (true :: crest))%Z) ->
  computes HON cs (bind (rc_products F [fa_bit F a0] (fa_bit F a0) (combine arest (firstn (match last_zero 0 (true :: crest) with Some t => t | None => (length (true :: crest) - 1)%nat end + 1) crest)))
                 (fun p => rc_bools F 0 p (combine (a0 :: arest) (true :: crest))))
    (fun _ _ => True) (fun s _ => exists bs, is_bits s (a0 :: arest) bs /\ (bval bs <= bval (true :: crest))%Z).
Proof.
  intros W HA L HH. inversion HA as [|? ? Ha HR]; subst.
  set (t := match last_zero 0 (true :: crest) with Some t => t | None => (length (true :: crest) - 1)%nat end).
  assert (TT : (t <= length crest)%nat /\ forall j, nth_error (true :: crest) j = Some false -> (j <= t)%nat).
  { pose proof (last_zero_spec (true :: crest) 0) as H. unfold t. destruct (last_zero 0 (true :: crest)).
    - cbn [length] in H. split; [lia|]. intros j Hj. apply (proj2 H j Hj).
    - cbn [length]. split; [lia|]. intros j Hj. destruct (H j Hj). }
  destruct TT as [T1 T2]. clearbody t.
  assert (EC : combine arest (firstn (t + 1) crest) = firstn (t + 1) (combine arest crest)).
  { clear. generalize (t + 1)%nat as m. revert arest. induction crest as [|c l IH]; intros [|a l0] [|m]; cbn; try reflexivity. f_equal. apply IH. }
  assert (HC : Forall (in_range cs) (map fst (combine arest (firstn (t + 1) crest)))).
  { rewrite Forall_forall in *. intros w Hw. apply HR. apply in_map_iff in Hw as ((u & v) & <- & He). apply in_combine_l in He. exact He. }
  eapply computes_bind; [apply products_ok; [exact W|exact HC|rok]|].
  intros p cs1 n1 W1 G1 (q & -> & LQ & OQ) R1. lift G1.
  assert (LC : length (combine arest (firstn (t + 1) crest)) = Nat.min (t + 1) (length crest)) by (rewrite combine_length, firstn_length; lia).
  assert (PP : forall s (q' : list (row F)), [fa_bit F a0] ++ q = [fa_bit F a0] ++ q' -> length q' = length (combine arest (firstn (t + 1) crest)) ->
    (forall j, (j < length (combine arest (firstn (t + 1) crest)))%nat -> lc s (nth j q' []) = lc s (fa_bit F a0) * pr s (firstn (S j) (combine arest (firstn (t + 1) crest)))) ->
    forall j, nth_error (map snd (combine (a0 :: arest) (true :: crest))) j = Some false ->
    lc s (nth (0 + j - 1) ([fa_bit F a0] ++ q) []) = 1 * pr s (firstn j (combine (a0 :: arest) (true :: crest)))).
  { intros s q' E LQ' H j Hj. cbn [app] in E. injection E as <-. rewrite combine_snd in Hj by (cbn; lia). pose proof (T2 j Hj) as TJ.
    destruct j as [|[|j]]; [cbn in Hj; discriminate| |].
    - change (0 + 1 - 1)%nat with 0%nat. cbn [app nth combine firstn pr]. unfold fa_bit. rewrite lc_wire. ring.
    - replace (0 + S (S j) - 1)%nat with (S j) by lia. cbn [app nth combine firstn pr].
      assert (JJ : (S j < S (length crest))%nat). { assert (NE : nth_error crest (S j) <> None) by (change (nth_error crest (S j) = Some false) in Hj; rewrite Hj; discriminate). apply nth_error_Some in NE. lia. }
      rewrite H by (rewrite LC; lia). rewrite EC, firstn_firstn, Nat.min_l by lia. unfold fa_bit. rewrite lc_wire. cbn [firstn]. ring. }
  eapply computes_weaken; [apply (bools_ok (combine (a0 :: arest) (true :: crest)) cs1 0 ([fa_bit F a0] ++ q) W1)| |].
  - rewrite combine_fst by (cbn; lia). assumption.
  - constructor; [rok|exact OQ].
  - intros j Hj. rewrite combine_snd in Hj by (cbn; lia). pose proof (T2 j Hj) as TJ. rewrite app_length, LQ, LC. cbn [length].
    destruct j as [|j]; [discriminate|]. assert (NE : nth_error crest j <> None) by (change (nth_error crest j = Some false) in Hj; rewrite Hj; discriminate). apply nth_error_Some in NE. lia.
  - intros h. destruct (R1 h) as (q' & E & LQ' & H). destruct (HH h) as (bs & HB & HV). apply (rc_idx_rel (own cs1) ([fa_bit F a0] ++ q) _ 0 1); [apply (PP (own cs1) q' E LQ' H)|].
    apply (rc_rel_complete _ _ 1 bs); [rewrite combine_fst by (cbn; lia); apply (is_bits_own _ _ _ _ _ G1); assumption|].
    right. split; [reflexivity|]. rewrite combine_snd by (cbn; lia). exact HV.
  - auto.
  - intros s u S HB2 (q' & E & LQ' & H). apply (rc_idx_rel s ([fa_bit F a0] ++ q) _ 0 1) in HB2; [|apply (PP s q' E LQ' H)].
    destruct (rc_rel_sound s _ 1 (or_intror eq_refl) HB2) as (bs2 & B2 & V2). rewrite combine_fst in B2 by (cbn; lia). rewrite combine_snd in V2 by (cbn; lia).
    exists bs2. split; [exact B2|apply V2; reflexivity].
Qed.
Lemma zeros_gates_ok : forall l cs, wf_cs cs -> Forall (in_range cs) l -> (HON -> Forall (fun w => own cs w = 0) l) ->
  computes HON cs (for_each (fun bit => fa_enforce_eq_constant F (fa_bit F bit) 0) l) (fun _ _ => True) (fun s _ => Forall (fun w => s w = 0) l).
Proof.
  induction l as [|w l IH]; intros cs W HA HZ; cbn [for_each].
  - apply computes_ret; [exact W|exact I|constructor].
  - inversion HA; subst. eapply computes_bind; [apply enforce_const_ok; [exact W|rok|intros h; unfold fa_bit; rewrite lc_wire; specialize (HZ h); inversion HZ; assumption]|].
    intros u cs1 n1 W1 G1 _ _. lift G1. eapply computes_bind; [apply (IH cs1 W1); [assumption|]|].
    + intros h. specialize (HZ h). inversion HZ; subst. rewrite Forall_forall in *. intros v Hv. rewrite (grow_own F _ _ _ _ G1) by auto. auto.
    + intros v cs2 n2 W2 G2 _ _. apply computes_ret; [exact W2|exact I|]. intros s S K1 K2. constructor; [|exact K1].
      revert K2. unfold fa_bit. rewrite lc_wire. auto.
Qed.
(** [range_check]: sound and complete for the bound [c], when there are enough bits and [c] is not zero. *)
Lemma range_check_ok (bits : F -> list bool) cs ws c : wf_cs cs -> Forall (in_range cs) ws -> (0 < bval (bits c))%Z ->
  (length (skip_zeros (bits c)) <= length ws)%nat ->
  (HON -> exists bs, is_bits (own cs) ws bs /\ (bval bs <= bval (bits c))%Z) ->
  computes HON cs (fa_range_check F bits ws c) (fun _ _ => True) (fun s _ => exists bs, is_bits s ws bs /\ (bval bs <= bval (bits c))%Z).
Proof.
  intros W HA HC HL HH. unfold fa_range_check. rewrite <- (bval_skip (bits c)) in *.
  destruct (skip_zeros_spec (bits c)) as (k & _ & D). destruct (skip_zeros (bits c)) as [|c0 crest] eqn:EC; [cbn in HC; lia|].
  destruct D as [D|(r & D)]; [discriminate|]. injection D as -> ->.
  destruct (Nat.ltb_spec (length ws) (length (true :: r))) as [X|_]; [lia|].
  set (n := (length ws - length (true :: r))%nat).
  assert (EW : ws = firstn n ws ++ skipn n ws) by (symmetry; apply firstn_skipn).
  assert (LW : length (skipn n ws) = length (true :: r)) by (rewrite skipn_length; unfold n; lia).
  destruct (skipn n ws) as [|a0 arest] eqn:ES; [discriminate|]. cbv zeta.
  assert (HA1 : Forall (in_range cs) (firstn n ws)) by (rewrite EW in HA; apply Forall_app in HA; apply HA).
  assert (HA2 : Forall (in_range cs) (a0 :: arest)) by (rewrite EW in HA; apply Forall_app in HA; apply HA).
  assert (HH' : HON -> Forall (fun w => own cs w = 0) (firstn n ws) /\ exists b2, is_bits (own cs) (a0 :: arest) b2 /\ (bval b2 <= bval (true :: r))%Z).
  { intros h. destruct (HH h) as (bs & HB & HV). clear HH. rewrite EW in HB. apply Forall2_app_inv_l in HB as (b1 & b2 & HB1 & HB2 & ->).
    assert (L2 : length b2 = length (true :: r)) by (rewrite <- (Forall2_len _ _ _ HB2); exact LW).
    pose proof (bval_range b1) as RB1. pose proof (bval_range b2) as RB2. pose proof (bval_range (true :: r)) as RC. rewrite bval_app in HV. rewrite L2 in *.
    assert (Z1 : bval b1 = 0%Z) by nia. split; [|exists b2; split; [exact HB2|lia]].
    assert (B1 : b1 = repeat false (length b1)) by (apply bval_inj; [rewrite repeat_length; reflexivity|rewrite bval_zeros; exact Z1]).
    rewrite B1 in HB1. clear - HB1. revert HB1. generalize (length b1) as m. generalize (firstn n ws) as l. induction l as [|w l IH]; intros [|m] H; inversion H; subst; constructor; eauto. }
  eapply computes_bind; [apply zeros_gates_ok; [assumption|assumption|intros h; apply (HH' h)]|]. intros u cs1 n1 W1 G1 _ _. lift G1. cbn [skipn].
  eapply computes_weaken; [apply range_tail_ok; [exact W1|assumption|cbn in LW; lia|]| |].
  - intros h. destruct (HH' h) as (_ & b2 & HB2 & HV2). exists b2. split; [apply (is_bits_own _ _ _ _ _ G1); assumption|exact HV2].
  - auto.
  - intros s u1 S (b3 & B3 & V3) HZ3. exists (repeat false n ++ b3). split.
    + rewrite EW. apply is_bits_app; [|exact B3]. assert (LF : length (firstn n ws) = n) by (rewrite firstn_length; unfold n; lia).
      clear - HZ3 LF. revert HZ3 LF. generalize (firstn n ws) as l. generalize n as m. intros m l. revert m. induction l as [|w l IH]; intros m HZ3 LF; [subst m; constructor|].
      destruct m as [|m]; [discriminate|]. inversion HZ3; subst. constructor; [assumption|]. apply IH; [assumption|cbn in LF; congruence].
    + rewrite bval_app, bval_zeros. lia.
Qed.
Lemma range_check_short (bits : F -> list bool) cs ws c : (length ws < length (skip_zeros (bits c)))%nat -> fa_range_check F bits ws c cs = Some (tt, cs).
Proof. intros H. unfold fa_range_check. destruct (Nat.ltb_spec (length ws) (length (skip_zeros (bits c)))); [reflexivity|lia]. Qed.
(** A zero bound panics when there are no leading bits to set aside or not. *)
Lemma range_check_zero (bits : F -> list bool) cs ws c : bval (bits c) = 0%Z -> fa_range_check F bits ws c cs = None.
Proof.
  intros H. unfold fa_range_check. rewrite <- bval_skip in H. destruct (skip_zeros_spec (bits c)) as (k & _ & [D|(r & D)]); rewrite D in *.
  - cbn [length]. destruct (Nat.ltb_spec (length ws) 0); [lia|]. rewrite Nat.sub_0_r. unfold bind.
    rewrite skipn_all. destruct (for_each _ _ cs) as [[? ?]|]; reflexivity.
  - exfalso. cbn [bval Z.b2z] in H. pose proof (bval_range r). lia.
Qed.

(** ** Bit decomposition *)
Variables (val : F -> Z) (p : Z) (bits : F -> list bool) (pow2 : nat -> F) (modulus : F) (nbits : nat).
Hypothesis CF : circuit_field F val p bits pow2 modulus nbits.
Let Hlen := cf_len _ _ _ _ _ _ _ CF. Let Hbits := cf_bits _ _ _ _ _ _ _ CF. Let Hrng := cf_range _ _ _ _ _ _ _ CF.
Lemma skip_len l n : (bval l < 2 ^ Z.of_nat n)%Z -> (length (skip_zeros l) <= n)%nat.
Proof.
  intros H. destruct (skip_zeros_spec l) as (k & E & [D|(r & D)]); [rewrite D; cbn; lia|]. rewrite <- bval_skip, D in H. rewrite D. cbn [bval Z.b2z length] in *.
  pose proof (bval_range r). destruct (Nat.le_gt_cases (S (length r)) n) as [L|L]; [exact L|]. exfalso.
  assert (2 ^ Z.of_nat n <= 2 ^ Z.of_nat (length r))%Z by (apply Z.pow_le_mono_r; lia). lia.
Qed.
Lemma skipn_bval n (l : list bool) : (n <= length l)%nat -> bval (skipn (length l - n) l) = (bval l mod 2 ^ Z.of_nat n)%Z.
Proof.
  intros L. assert (LL : length (skipn (length l - n) l) = n) by (rewrite skipn_length; lia). pose proof (bval_range (skipn (length l - n) l)) as R. rewrite LL in R.
  rewrite <- (firstn_skipn (length l - n) l) at 3. rewrite bval_app, LL, Z.add_comm, Z.mod_add by lia. symmetry. apply Z.mod_small, R.
Qed.
Lemma for_bits_ok : forall l cs, wf_cs cs ->
  computes HON cs (for_each (bin_witness F) l) (fun cs' ws => Forall (in_range cs') ws /\ is_bits (own cs') ws l) (fun _ ws => length ws = length l).
Proof.
  induction l as [|b l IH]; intros cs W; cbn [for_each].
  - apply computes_ret; [exact W|split; constructor|reflexivity].
  - eapply computes_bind; [apply new_w_ok, W|]. intros w cs1 n1 W1 G1 [O1 V1] _. eapply computes_bind; [apply (IH cs1 W1)|]. intros ws cs2 n2 W2 G2 [O2 V2] _. lift G2.
    apply computes_ret; [exact W2| |cbn; congruence]. split; [constructor; assumption|]. constructor; [rewrite (grow_own F _ _ _ _ G2 O1); exact V1|exact V2].
Qed.
Lemma is_bits_skipn s n ws bs : is_bits s ws bs -> is_bits s (skipn n ws) (skipn n bs).
Proof. revert ws bs. induction n as [|n IH]; intros ws bs H; [exact H|]. inversion H; subst; [constructor|]. cbn [skipn]. apply IH. assumption. Qed.
Lemma Forall_skipn {A} (P : A -> Prop) n l : Forall P l -> Forall P (skipn n l).
Proof. revert l. induction n as [|n IH]; intros l H; [exact H|]. inversion H; subst; [constructor|]. apply IH. assumption. Qed.
(** The largest value [n] bits are allowed to take. *)
Definition bits_bound (n : nat) : Z := if Nat.ltb n 254 then 2 ^ Z.of_nat n - 1 else p - 1.
Lemma to_bits_ok cs x n : wf_cs cs -> row_ok cs x -> (1 <= n <= 256)%nat ->
  computes HON cs (fa_to_bits F bits pow2 modulus nbits x n)
    (fun cs' ws => Forall (in_range cs') ws /\ length ws = n /\ exists bs, is_bits (own cs') ws bs /\ bval bs = (val (lc (own cs) x) mod 2 ^ Z.of_nat n)%Z)
    (fun s ws => exists bs, is_bits s ws bs /\ (bval bs <= bits_bound n)%Z).
Proof.
  intros W HX HN. unfold fa_to_bits. destruct (Nat.ltb_spec 256 n) as [X|_]; [lia|]. apply value_bind; [apply HX|].
  set (v := lc (own cs) x). eapply computes_bind; [apply for_bits_ok, W|]. intros ws cs1 n1 W1 G1 [O1 B1] _. lift G1. cbv zeta.
  set (ws' := skipn (256 - n) ws). set (bs := skipn (256 - n) (bits v)).
  assert (LB : length bs = n) by (unfold bs; rewrite skipn_length, Hlen; lia).
  assert (BV : bval bs = (val v mod 2 ^ Z.of_nat n)%Z) by (unfold bs; rewrite <- (Hlen v), skipn_bval, Hbits by (rewrite Hlen; lia); reflexivity).
  assert (B2 : is_bits (own cs1) ws' bs) by (apply is_bits_skipn, B1).
  assert (LW : length ws' = n) by (rewrite (Forall2_len _ _ _ B2); exact LB).
  assert (O2 : Forall (in_range cs1) ws') by (apply Forall_skipn, O1).
  assert (BB : (bval bs <= bits_bound n)%Z).
  { rewrite BV. pose proof (Hrng v) as R. pose proof (cf_p _ _ _ _ _ _ _ CF). unfold bits_bound. destruct (Nat.ltb_spec n 254) as [L|L].
    - pose proof (Z.mod_pos_bound (val v) (2 ^ Z.of_nat n) ltac:(lia)). lia.
    - assert (2 ^ 254 <= 2 ^ Z.of_nat n)%Z by (apply Z.pow_le_mono_r; lia). rewrite Z.mod_small by lia. lia. }
  clearbody ws' bs.
  assert (RC : exists c, (if Nat.ltb n nbits then fa_range_check_bits F bits pow2 ws' n else fa_range_check F bits ws' (modulus - 1)) = fa_range_check F bits ws' c /\ val c = bits_bound n).
  { rewrite (cf_nbits _ _ _ _ _ _ _ CF). unfold bits_bound. destruct (Nat.ltb_spec n 254) as [L|L].
    - exists (pow2 n - 1). split; [reflexivity|]. apply (cf_pow2 _ _ _ _ _ _ _ CF). lia.
    - exists (modulus - 1). split; [reflexivity|]. apply (cf_mod _ _ _ _ _ _ _ CF). }
  destruct RC as (c & EC & VC). rewrite EC.
  assert (B0 : (0 < bits_bound n < 2 ^ Z.of_nat n)%Z).
  { pose proof (cf_p _ _ _ _ _ _ _ CF). unfold bits_bound. destruct (Nat.ltb_spec n 254) as [L|L].
    - assert (2 ^ 1 <= 2 ^ Z.of_nat n)%Z by (apply Z.pow_le_mono_r; lia). lia.
    - assert (2 ^ 254 <= 2 ^ Z.of_nat n)%Z by (apply Z.pow_le_mono_r; lia). lia. }
  eapply computes_bind; [apply (range_check_ok bits cs1 ws' c W1 O2); rewrite ?Hbits, ?VC|].
  - lia.
  - rewrite LW. apply skip_len. rewrite Hbits, VC. lia.
  - intros _. exists bs. split; [exact B2|]. exact BB.
  - intros u cs2 n2 W2 G2 _ _. lift G2. apply computes_ret; [exact W2| |].
    + split; [assumption|]. split; [exact LW|]. exists bs. split; [apply (is_bits_own _ _ _ _ _ G2); assumption|exact BV].
    + intros s S H _. rewrite Hbits, VC in H. exact H.
Qed.
(** The field value of bits. *)
Lemma val_pow2 k : val (kpow (1 + 1) k) = (2 ^ Z.of_nat k mod p)%Z.
Proof.
  pose proof (cf_p _ _ _ _ _ _ _ CF) as P. induction k as [|k IH]; [cbn [kpow]; rewrite (cf_one _ _ _ _ _ _ _ CF); symmetry; apply Z.mod_1_l; lia|].
  cbn [kpow]. rewrite (cf_mul _ _ _ _ _ _ _ CF), IH, (cf_add _ _ _ _ _ _ _ CF), (cf_one _ _ _ _ _ _ _ CF).
  rewrite Z.mul_mod_idemp_l, Z.mul_mod_idemp_r by lia. f_equal. rewrite Nat2Z.inj_succ, Z.pow_succ_r by lia. lia.
Qed.
Lemma bits_value_val s ws bs : is_bits s ws bs -> val (bits_value F s ws) = (bval bs mod p)%Z.
Proof.
  pose proof (cf_p _ _ _ _ _ _ _ CF) as P. intros H. induction H as [|w b ws bs E H IH]; [cbn [bits_value bval]; rewrite (cf_zero _ _ _ _ _ _ _ CF), Z.mod_0_l by lia; reflexivity|].
  cbn [bits_value bval]. rewrite (cf_add _ _ _ _ _ _ _ CF), (cf_mul _ _ _ _ _ _ _ CF), IH, val_pow2, E, (Forall2_len _ _ _ H).
  rewrite Z.mul_mod_idemp_r by lia. rewrite <- Z.add_mod by lia. f_equal. f_equal. f_equal. destruct b; cbn [kbit Z.b2z]; [apply (cf_one _ _ _ _ _ _ _ CF)|apply (cf_zero _ _ _ _ _ _ _ CF)].
Qed.
(** Decomposing and binding the bits to the value, as the library's own circuits do. *)
Definition bits_of (x : row F) (n : nat) : G F (list wire) := bind (fa_to_bits F bits pow2 modulus nbits x n) (fun bs => bind (fa_enforce_eq_bits F x bs) (fun _ => ret bs)).
Lemma bits_bound_lt n : (bits_bound n < p)%Z.
Proof.
  pose proof (cf_p _ _ _ _ _ _ _ CF) as P. unfold bits_bound. destruct (Nat.ltb_spec n 254); [|lia].
  assert (2 ^ Z.of_nat n <= 2 ^ 253)%Z by (apply Z.pow_le_mono_r; lia). lia.
Qed.
Lemma bits_of_ok cs x n : wf_cs cs -> row_ok cs x -> (1 <= n <= 256)%nat -> (HON -> (val (lc (own cs) x) < 2 ^ Z.of_nat n)%Z) ->
  computes HON cs (bits_of x n)
    (fun cs' ws => Forall (in_range cs') ws /\ length ws = n /\ exists bs, is_bits (own cs') ws bs /\ bval bs = (val (lc (own cs) x) mod 2 ^ Z.of_nat n)%Z)
    (fun s ws => exists bs, is_bits s ws bs /\ bval bs = val (lc s x)).
Proof.
  intros W HX HN HV. unfold bits_of. eapply computes_bind; [apply to_bits_ok; assumption|]. intros ws cs1 n1 W1 G1 (O1 & L1 & bs & B1 & V1) _. lift G1.
  eapply computes_bind; [apply enforce_bits_ok; [exact W1|assumption|assumption|]|].
  - intros h. apply (cf_inj _ _ _ _ _ _ _ CF). rewrite (bits_value_val _ _ _ B1), V1, (grow_lc F _ _ _ _ G1) by apply HX.
    pose proof (Hrng (lc (own cs) x)). rewrite (Z.mod_small _ (2 ^ _)) by (split; [lia|apply HV, h]). symmetry. apply Z.mod_small. lia.
  - intros u cs2 n2 W2 G2 _ _. lift G2. apply computes_ret; [exact W2| |].
    + split; [assumption|]. split; [exact L1|]. exists bs. split; [apply (is_bits_own _ _ _ _ _ G2); assumption|exact V1].
    + intros s S E (bs2 & B2 & V2). exists bs2. split; [exact B2|]. rewrite E, (bits_value_val _ _ _ B2). symmetry. apply Z.mod_small.
      pose proof (bval_range bs2). pose proof (bits_bound_lt n). lia.
Qed.
End Range.
