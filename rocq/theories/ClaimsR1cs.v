(** Rank-one constraint systems and gadgets (C28-C33). *)
From Coq Require Import ZArith List Bool Lia Field.
From Verif Require Import LimbModel MontProofs Primes FieldMore FieldSpec Algebra CurveSpec CurveGroup WeierModel WeierProofs GroupLib CurveAb ExtParams CurveParams
  R1csModel R1csSpec R1csProofs GadgetProofs RangeProofs CompleteAdd CurveGadget R1csShape ForgeProofs CircuitFields.
Import ListNotations.
Local Open Scope fld_scope.

(** A system with a witness wire holding [u] and one holding [v]. *)
Definition demo (F : Fld) (u v : F) : r1cs F := mkR1cs 0 [] [] [] [1] [u; v].
Lemma demo_wf F u v : wf_cs (demo F u v).
Proof. unfold wf_cs. cbn. auto 10. Qed.
Lemma demo_sat F u v : satisfies (own (demo F u v)) (demo F u v).
Proof. split; [reflexivity|constructor]. Qed.
Lemma demo_row F u v i : (i < 2)%nat -> row_ok (demo F u v) (row_wire F (Wit i)).
Proof. intros H. apply ok_wire. exact H. Qed.

(** ** C28 *)
Lemma evaluate_range F (r : row F) x w v : row_evaluate r x w = Some v -> Forall (in_range (mkR1cs 0 [] [] [] x w)) (map fst r) /\ v = lc (own (mkR1cs 0 [] [] [] x w)) r.
Proof.
  intros H. assert (R : Forall (in_range (mkR1cs 0 [] [] [] x w)) (map fst r)).
  { unfold row_evaluate in H. revert H. generalize (Some (0 : F)). induction r as [|[i c] r IH]; intros a H; [constructor|]. cbn [fold_left map fst snd] in *.
    assert (NN : forall l : row F, fold_left (fun acc e => match acc, wire_value x w (fst e) with Some s, Some v => Some (s + v * snd e) | _, _ => None end) l None = None).
    { induction l as [|e l IHl]; [reflexivity|exact IHl]. }
    destruct a as [a|]; [|rewrite NN in H; discriminate]. destruct (wire_value x w i) as [u|] eqn:E; [|rewrite NN in H; discriminate].
    constructor; [|apply (IH _ H)]. destruct i as [i|i]; cbn in *; apply nth_error_Some; rewrite E; discriminate. }
  split; [exact R|]. pose proof (row_evaluate_ok F _ _ R) as E. cbn [r_x r_w] in E. rewrite E in H. injection H as <-. reflexivity.
Qed.
Theorem C28_rows_linear (F : Fld) (a b : row F) (c : F) x w va vb :
  NoDup (map fst a) -> NoDup (map fst b) -> row_evaluate a x w = Some va -> row_evaluate b x w = Some vb ->
  row_evaluate (row_add F a b) x w = Some (va + vb) /\ row_evaluate (row_sub F a b) x w = Some (va - vb) /\
  row_evaluate (row_neg F a) x w = Some (- va) /\ row_evaluate (row_scale F a c) x w = Some (va * c) /\
  NoDup (map fst (row_add F a b)) /\ NoDup (map fst (row_sub F a b)) /\ NoDup (map fst (row_neg F a)) /\ NoDup (map fst (row_scale F a c)).
Proof.
  intros NA NB HA HB. apply evaluate_range in HA as [RA ->]. apply evaluate_range in HB as [RB ->]. set (cs := mkR1cs 0 [] [] [] x w) in *.
  change (row_evaluate ?r x w) with (row_evaluate r (r_x cs) (r_w cs)).
  assert (RN : Forall (in_range cs) (map fst (row_neg F b))) by (apply range_scale, RB).
  rewrite !(row_evaluate_ok F cs) by (first [apply range_add; assumption|apply range_scale; assumption]).
  rewrite lc_add, lc_sub, lc_neg, lc_scale by assumption.
  split; [reflexivity|]. split; [reflexivity|]. split; [reflexivity|]. split; [reflexivity|].
  split; [apply nodup_add; assumption|]. split; [apply nodup_sub; assumption|]. split; apply nodup_scale; assumption.
Qed.
Example C28_used : exists a b x w va vb, a <> [] /\ b <> [] /\ NoDup (map fst a) /\ NoDup (map fst b) /\ @row_evaluate FrFld a x w = Some va /\ @row_evaluate FrFld b x w = Some vb.
Proof.
  exists [(ONE, fr_mk 2); (Wit 0, fr_mk 3)], [(Wit 0, fr_mk 7)], [1], [fr_mk 5]. do 2 eexists. split; [discriminate|]. split; [discriminate|].
  split; [cbn; constructor; [intros [E|[]]; discriminate E|constructor; [intros []|constructor]]|]. split; [cbn; constructor; [intros []|constructor]|].
  split; reflexivity.
Qed.
(** A wire listed twice is counted once by addition. *)
Section Rep.
Variable F : Fld.
Add Field c28f : (kth F).
Theorem C28_repeated_wire_refuted : exists (a b : row F) x w va vb,
  row_evaluate a x w = Some va /\ row_evaluate b x w = Some vb /\ row_evaluate (row_add F a b) x w <> Some (va + vb).
Proof.
  exists [(Wit 0, 1); (Wit 0, 1)], [(Wit 0, 1)], [], [1]. do 2 eexists. split; [reflexivity|]. split; [reflexivity|].
  assert (E : row_add F [(Wit 0, 1); (Wit 0, 1)] [(Wit 0, 1)] = row_new F [(Wit 0, 1 + 1)]) by reflexivity. rewrite E. unfold row_new, kis0. cbn [filter snd].
  intros H. apply (k1_neq0 F). destruct (keqb (1 + 1) (0 : F)) eqn:EZ; cbn [negb] in H; cbn in H; injection H as H.
  - apply (keqb_eq F) in EZ. transitivity (0 + 1 * 1 + 1 * 1 + (0 + 1 * 1) - (1 + 1) : F); [ring|]. rewrite <- H, EZ. ring.
  - transitivity (0 + 1 * 1 + 1 * 1 + (0 + 1 * 1) - (0 + 1 * (1 + 1)) : F); [ring|]. rewrite <- H. ring.
Qed.
Lemma mul1_iff (a b : F) : a * 1 = b <-> a = b.
Proof. assert (E : a * 1 = a) by ring. rewrite E. tauto. Qed.
End Rep.

(** ** C29 *)
(** [is_sat] decides whether every gate holds of the stored values. *)
Theorem C29_is_sat_iff_gates (F : Fld) (cs : r1cs F) : wf_cs cs ->
  exists b, is_sat F cs = Some b /\ (b = true <-> Forall (holds (own cs)) (gates cs)).
Proof. apply is_sat_ok. Qed.
(** Each gate function appends one gate, which says what its name says. *)
Theorem C29_gates_appended (F : Fld) (cs : r1cs F) (x y z : row F) : wf_cs cs ->
  (exists g, gates (mul_gate F x y z cs) = gates cs ++ [g] /\ forall s, s ONE = 1 -> (holds s g <-> lc s x * lc s y = lc s z)) /\
  (exists g, gates (equal_gate F x y cs) = gates cs ++ [g] /\ forall s, s ONE = 1 -> (holds s g <-> lc s x = lc s y)) /\
  (NoDup (map fst x) -> NoDup (map fst y) ->
   (exists g, gates (add_gate F x y z cs) = gates cs ++ [g] /\ forall s, s ONE = 1 -> (holds s g <-> lc s x + lc s y = lc s z)) /\
   (exists g, gates (sub_gate F x y z cs) = gates cs ++ [g] /\ forall s, s ONE = 1 -> (holds s g <-> lc s x - lc s y = lc s z))).
Proof.
  intros (LA & LB & LC & _). assert (AP : forall a b c, gates (append F cs a b c) = gates cs ++ [(a, (b, c))]).
  { intros a b c. unfold gates. cbn [append r_a r_b r_c]. rewrite (combine_snoc (r_b cs)) by congruence. rewrite combine_snoc by (rewrite combine_length; lia). reflexivity. }
  pose proof (mul1_iff F) as M1.
  split; [eexists; split; [apply AP|]; intros s S; reflexivity|].
  split; [eexists; split; [apply AP|]; intros s S; unfold holds; cbn [fst snd]; rewrite (lc_one F s S); apply M1|].
  intros NX NY. split; eexists; (split; [apply AP|]); intros s S; unfold holds; cbn [fst snd]; rewrite lc_wire, S; [rewrite lc_add by assumption|rewrite lc_sub by assumption]; apply M1.
Qed.
(** A gate function changes no value, so satisfaction of the earlier gates is unaffected. *)
Theorem C29_append_is_sat (F : Fld) (cs : r1cs F) (x y z : row F) : wf_cs cs -> row_ok cs x -> row_ok cs y -> row_ok cs z ->
  (is_sat F (mul_gate F x y z cs) = Some true <-> is_sat F cs = Some true /\ lc (own cs) x * lc (own cs) y = lc (own cs) z).
Proof.
  intros W [X _] [Y _] [Z _]. destruct (append_ok F cs x y z W X Y Z) as (W' & (_ & _ & GG) & O).
  destruct (is_sat_ok F cs W) as (b & -> & I). destruct (is_sat_ok F (append F cs x y z) W') as (b' & E' & I'). unfold mul_gate. rewrite E', O, GG in *.
  rewrite Forall_app in I'. split.
  - intros H. injection H as ->. destruct (proj1 I' eq_refl) as [A B]. split; [apply f_equal, I, A|]. inversion B; subst. assumption.
  - intros [H K]. injection H as ->. apply f_equal, I'. split; [apply I; reflexivity|]. constructor; [exact K|constructor].
Qed.
(** [evaluate] returns the three matrix-vector products. *)
Theorem C29_evaluate (F : Fld) (cs : r1cs F) : wf_cs cs ->
  evaluate_all F cs = Some (map (lc (own cs)) (r_a cs), map (lc (own cs)) (r_b cs), map (lc (own cs)) (r_c cs)).
Proof.
  intros W. unfold evaluate_all, evaluate_with_z.
  rewrite !(all_some_map _ (lc (own cs))); [reflexivity| | |]; intros r I; apply row_evaluate_ok, (rows_range F cs r W); tauto.
Qed.
(** The column view of a matrix: one list per wire, in row order. *)
Lemma push_at_spec {A} (l : list (list A)) k v : (k < length l)%nat -> exists l', push_at l k v = Some l' /\ length l' = length l /\
  forall j, nth j l' [] = if Nat.eqb j k then nth j l [] ++ [v] else nth j l [].
Proof.
  revert k. induction l as [|c l IH]; intros k H; [cbn in H; lia|]. destruct k as [|k]; cbn [push_at].
  - exists ((c ++ [v]) :: l). split; [reflexivity|]. split; [reflexivity|]. intros [|j]; reflexivity.
  - destruct (IH k) as (l' & E & L & N); [cbn in H; lia|]. rewrite E. exists (c :: l'). split; [reflexivity|]. split; [cbn; congruence|].
    intros [|j]; [reflexivity|]. cbn [nth Nat.eqb]. apply N.
Qed.
Lemma xw_row_spec (F : Fld) i (r : row F) : forall x w, (forall e, In e r -> match fst e with Inst k => (k < length x)%nat | Wit k => (k < length w)%nat end) ->
  exists x' w', xw_row F i r x w = Some (x', w') /\ length x' = length x /\ length w' = length w /\
    (forall k, nth k x' [] = nth k x [] ++ map (fun e => (snd e, i)) (filter (fun e => wire_eqb (fst e) (Inst k)) r)) /\
    (forall k, nth k w' [] = nth k w [] ++ map (fun e => (snd e, i)) (filter (fun e => wire_eqb (fst e) (Wit k)) r)).
Proof.
  induction r as [|[[k|k] c] r IH]; intros x w H; cbn [xw_row].
  - exists x, w. split; [reflexivity|]. split; [reflexivity|]. split; [reflexivity|]. split; intros k; cbn; rewrite app_nil_r; reflexivity.
  - destruct (push_at_spec x k (c, i) (H _ (or_introl eq_refl))) as (x1 & E1 & L1 & N1). rewrite E1.
    destruct (IH x1 w) as (x' & w' & E & LX & LW & NX & NW); [intros e I; rewrite L1; apply (H e); right; exact I|].
    exists x', w'. split; [exact E|]. split; [congruence|]. split; [exact LW|]. split; intros j.
    + rewrite NX, N1. cbn [filter fst wire_eqb]. rewrite (Nat.eqb_sym k j). destruct (Nat.eqb j k); cbn [map snd]; [rewrite <- app_assoc; reflexivity|reflexivity].
    + rewrite NW. reflexivity.
  - destruct (push_at_spec w k (c, i) (H _ (or_introl eq_refl))) as (w1 & E1 & L1 & N1). rewrite E1.
    destruct (IH x w1) as (x' & w' & E & LX & LW & NX & NW); [intros e I; rewrite L1; apply (H e); right; exact I|].
    exists x', w'. split; [exact E|]. split; [exact LX|]. split; [congruence|]. split; intros j.
    + rewrite NX. reflexivity.
    + rewrite NW, N1. cbn [filter fst wire_eqb]. rewrite (Nat.eqb_sym k j). destruct (Nat.eqb j k); cbn [map snd]; [rewrite <- app_assoc; reflexivity|reflexivity].
Qed.
Lemma xw_rows_spec (F : Fld) (mat : list (row F)) : forall i x w,
  (forall r e, In r mat -> In e r -> match fst e with Inst k => (k < length x)%nat | Wit k => (k < length w)%nat end) ->
  exists x' w', xw_rows F i mat x w = Some (x', w') /\ length x' = length x /\ length w' = length w /\
    (forall k, nth k x' [] = nth k x [] ++ flat_map (fun '(i, r) => map (fun e => (snd e, i)) (filter (fun e => wire_eqb (fst e) (Inst k)) r)) (combine (seq i (length mat)) mat)) /\
    (forall k, nth k w' [] = nth k w [] ++ flat_map (fun '(i, r) => map (fun e => (snd e, i)) (filter (fun e => wire_eqb (fst e) (Wit k)) r)) (combine (seq i (length mat)) mat)).
Proof.
  induction mat as [|r mat IH]; intros i x w H; cbn [xw_rows].
  - exists x, w. split; [reflexivity|]. split; [reflexivity|]. split; [reflexivity|]. split; intros k; cbn; rewrite app_nil_r; reflexivity.
  - destruct (xw_row_spec F i r x w) as (x1 & w1 & E1 & LX1 & LW1 & NX1 & NW1); [intros e I; apply (H r e); [left; reflexivity|exact I]|]. rewrite E1.
    destruct (IH (S i) x1 w1) as (x' & w' & E & LX & LW & NX & NW).
    { intros r' e I I'. rewrite LX1, LW1. apply (H r' e); [right; exact I|exact I']. }
    exists x', w'. split; [exact E|]. split; [congruence|]. split; [congruence|].
    split; intros k; [rewrite NX, NX1|rewrite NW, NW1]; cbn [length seq combine flat_map]; rewrite app_assoc; reflexivity.
Qed.
Theorem C29_transpose (F : Fld) (mat : list (row F)) l m_l_1 :
  (forall r e, In r mat -> In e r -> match fst e with Inst k => (k < l)%nat | Wit k => (k < m_l_1)%nat end) ->
  exists x w, x_and_w F mat l m_l_1 = Some (x, w) /\ length x = l /\ length w = m_l_1 /\
    (forall k, (k < l)%nat -> nth k x [] = column (Inst k) mat) /\ (forall k, (k < m_l_1)%nat -> nth k w [] = column (Wit k) mat).
Proof.
  intros H. destruct (xw_rows_spec F mat 0 (repeat [] l) (repeat [] m_l_1)) as (x & w & E & LX & LW & NX & NW).
  { intros r e. rewrite !repeat_length. apply H. }
  rewrite repeat_length in LX, LW. exists x, w. split; [exact E|]. split; [exact LX|]. split; [exact LW|].
  split; intros k Hk; [rewrite NX|rewrite NW]; rewrite nth_repeat; reflexivity.
Qed.
Example C29_case : exists cs : r1cs FrFld, wf_cs cs /\ length (gates cs) = 1%nat /\ is_sat FrFld cs = Some true /\
  forall r e, In r (r_a cs) -> In e r -> match fst e with Inst k => (k < 1)%nat | Wit k => (k < 2)%nat end.
Proof.
  set (d := demo FrFld (fr_mk 3) (fr_mk 9)). set (x := row_wire FrFld (Wit 0)). set (y := row_wire FrFld (Wit 1)).
  assert (X : row_ok d x) by (apply demo_row; lia). assert (Y : row_ok d y) by (apply demo_row; lia).
  exists (mul_gate FrFld x x y d). split; [apply (append_ok FrFld d x x y (demo_wf FrFld _ _) (proj1 X) (proj1 X) (proj1 Y))|].
  split; [reflexivity|]. split.
  - apply (proj2 (C29_append_is_sat FrFld d x x y (demo_wf FrFld _ _) X X Y)). split; [reflexivity|]. unfold x, y. rewrite !lc_wire. apply keqb_eq. vm_compute. reflexivity.
  - intros r e [<-|[]]. unfold x. rewrite row_wire_eq. intros [<-|[]]. cbn. lia.
Qed.

(** ** C30, C31: the scalar gadgets *)
Section Gadgets.
Variable F : Fld.
Add Field c30f : (kth F).
Variable cs : r1cs F.
Hypothesis W : wf_cs cs.
Implicit Types (s : asg F) (x y : row F).
Lemma ext_lc (cs0 cs' : r1cs F) r : extends cs0 cs' -> row_ok cs0 r -> lc (own cs') r = lc (own cs0) r.
Proof. intros (A & B & n & C) [R _]. apply (grow_lc F cs0 cs' n); [exact (conj A (conj B C))|exact R]. Qed.
Lemma ext_own (cs0 cs' : r1cs F) w : extends cs0 cs' -> in_range cs0 w -> own cs' w = own cs0 w.
Proof. intros (A & B & n & C) R. apply (grow_own F cs0 cs' n); [exact (conj A (conj B C))|exact R]. Qed.
Ltac complete L := eapply complete_weaken; [eapply (computes_complete F True cs); [exact I|exact W|apply L]|cbv beta].
Ltac sound L := eapply computes_sound; apply (L F False); try assumption; try contradiction.
Notation V r := (lc (own cs) r).
(** Honest runs: they succeed, keep a satisfied system satisfied, and compute. *)
Theorem C30_inputs v :
  complete_at cs (fa_witness F v) (fun cs' z => row_ok cs' z /\ lc (own cs') z = v) /\
  complete_at cs (fa_instance F v) (fun cs' z => row_ok cs' z /\ lc (own cs') z = v).
Proof. split; [complete witness_ok|complete instance_ok]; try exact W; tauto. Qed.
Theorem C30_mul x y : row_ok cs x -> row_ok cs y -> complete_at cs (fa_mul F x y) (fun cs' z => row_ok cs' z /\ lc (own cs') z = V x * V y).
Proof. intros HX HY. complete mul_ok; try assumption. intros cs' z E [O H]. rewrite H, !(ext_lc _ _ _ E) by assumption. auto. Qed.
Theorem C30_square x : row_ok cs x -> complete_at cs (fa_square F x) (fun cs' z => row_ok cs' z /\ lc (own cs') z = V x * V x).
Proof. intros HX. apply C30_mul; assumption. Qed.
Theorem C30_add x y : row_ok cs x -> row_ok cs y -> complete_at cs (fa_add F x y) (fun cs' z => row_ok cs' z /\ lc (own cs') z = V x + V y).
Proof. intros HX HY. complete add_ok; try assumption. intros cs' z E [O H]. rewrite H, !(ext_lc _ _ _ E) by assumption. auto. Qed.
Theorem C30_enforce_equal x y c : row_ok cs x -> row_ok cs y ->
  (V x = V y -> complete_at cs (fa_enforce_eq F x y) (fun _ _ => True)) /\ (V x = c -> complete_at cs (fa_enforce_eq_constant F x c) (fun _ _ => True)).
Proof. intros HX HY. split; intros H; [complete enforce_eq_ok|complete enforce_const_ok]; auto. Qed.
Theorem C30_conditional_enforce_equal x y c : row_ok cs x -> row_ok cs y -> in_range cs c -> own cs c = 0 \/ V x = V y ->
  complete_at cs (fa_conditional_enforce_equal F x y c) (fun _ _ => True).
Proof. intros HX HY HC H. complete cond_enforce_ok; auto. Qed.
Theorem C30_conditional_select a b c : row_ok cs a -> row_ok cs b -> in_range cs c ->
  complete_at cs (fa_conditional_select F a b c) (fun cs' z => row_ok cs' z /\ (own cs c = 1 -> lc (own cs') z = V a) /\ (own cs c = 0 -> lc (own cs') z = V b)).
Proof.
  intros HA HB HC. complete select_ok; try assumption. intros cs' z E [O H]. rewrite (ext_lc _ _ a E), (ext_lc _ _ b E), (ext_own _ _ _ E) in H by assumption.
  split; [exact O|]. rewrite H. split; intros ->; ring.
Qed.
Theorem C30_boolean a b : in_range cs a -> in_range cs b ->
  complete_at cs (bin_not F a) (fun cs' w => in_range cs' w /\ own cs' w = if keqb (own cs a) 1 then 0 else 1) /\
  complete_at cs (bin_and F a b) (fun cs' w => in_range cs' w /\ own cs' w = if keqb (own cs a) 1 && keqb (own cs b) 1 then 1 else 0).
Proof. intros HA HB. split; [complete bin_not_ok|complete bin_and_ok]; try assumption; tauto. Qed.
Lemma is_eq_ok H x y : row_ok cs x -> row_ok cs y ->
  computes H cs (fa_is_eq F x y) (fun cs' w => in_range cs' w /\ own cs' w = if keqb (V x) (V y) then 1 else 0) (fun _ _ => True).
Proof.
  intros HX HY. unfold fa_is_eq. eapply computes_bind; [apply (is_neq_ok F H cs x y W HX HY)|]. intros n cs1 n1 W1 G1 [O1 V1] _.
  eapply computes_weaken; [apply (bin_not_ok F H cs1 n W1 O1)| |auto]. intros cs' nw a _ _ [O2 V2] _. split; [exact O2|]. rewrite V2, V1.
  destruct (keqb (V x) (V y)); cbn [negb kbit]; [|rewrite keqb_refl; reflexivity].
  destruct (keqb_spec F 0 1) as [E|]; [destruct (k1_neq0 F (eq_sym E))|reflexivity].
Qed.
Theorem C30_comparison x y : row_ok cs x -> row_ok cs y ->
  complete_at cs (fa_is_eq F x y) (fun cs' w => in_range cs' w /\ own cs' w = if keqb (V x) (V y) then 1 else 0) /\
  complete_at cs (fa_is_neq F x y) (fun cs' w => in_range cs' w /\ own cs' w = if keqb (V x) (V y) then 0 else 1).
Proof.
  intros HX HY. split; [complete is_eq_ok|complete is_neq_ok]; try assumption; [tauto|]. intros cs' w E [[O H] _]. split; [exact O|]. rewrite H.
  destruct (keqb (V x) (V y)); reflexivity.
Qed.

(** Adversarial assignments. *)
Theorem C31_mul x y : row_ok cs x -> row_ok cs y -> sound_at cs (fa_mul F x y) (fun s z => lc s z = lc s x * lc s y).
Proof. intros HX HY. sound mul_ok. Qed.
Theorem C31_add x y : row_ok cs x -> row_ok cs y -> sound_at cs (fa_add F x y) (fun s z => lc s z = lc s x + lc s y).
Proof. intros HX HY. sound add_ok. Qed.
Theorem C31_enforce_equal x y c : row_ok cs x -> row_ok cs y ->
  sound_at cs (fa_enforce_eq F x y) (fun s _ => lc s x = lc s y) /\ sound_at cs (fa_enforce_eq_constant F x c) (fun s _ => lc s x = c).
Proof. intros HX HY. split; [sound enforce_eq_ok|sound enforce_const_ok]. Qed.
Theorem C31_conditional_enforce_equal x y c : row_ok cs x -> row_ok cs y -> in_range cs c ->
  sound_at cs (fa_conditional_enforce_equal F x y c) (fun s _ => s c = 0 \/ lc s x = lc s y).
Proof. intros HX HY HC. sound cond_enforce_ok. Qed.
Theorem C31_conditional_select a b c : row_ok cs a -> row_ok cs b -> in_range cs c ->
  sound_at cs (fa_conditional_select F a b c) (fun s z => (s c = 1 -> lc s z = lc s a) /\ (s c = 0 -> lc s z = lc s b)).
Proof.
  intros HA HB HC. eapply computes_sound. eapply computes_weaken; [apply (select_ok F False); eassumption|intros cs' nw a0 _ _ O _; exact O|].
  intros s z S H. cbv beta in H. rewrite H. split; intros ->; ring.
Qed.
(** The one direction of [is_neq] that is enforced. *)
Theorem C31_is_neq_of_equal x y : row_ok cs x -> row_ok cs y -> sound_at cs (fa_is_neq F x y) (fun s w => lc s x = lc s y -> s w = 0).
Proof. intros HX HY. sound is_neq_ok. Qed.

(** ** C32: what is not enforced.  Every value can be the output. *)
Theorem C32_boolean_outputs_refuted (b : bool) w1 w2 v : in_range cs w1 -> in_range cs w2 ->
  admits cs (bin_witness F b) (fun s' w => s' w = v) /\ admits cs (bin_not F w1) (fun s' w => s' w = v) /\ admits cs (bin_and F w1 w2) (fun s' w => s' w = v).
Proof. intros H1 H2. split; [apply free_witness, W|]. split; [apply free_not; assumption|apply free_and; assumption]. Qed.
Theorem C32_inputize_refuted x v : row_ok cs x -> admits cs (fa_inputize F x) (fun s' r => lc s' r = v).
Proof. intros HX. apply free_inputize; assumption. Qed.
Theorem C32_is_eq_refuted x y v : row_ok cs x -> row_ok cs y -> admits cs (fa_is_eq F x y) (fun s' w => s' w = v).
Proof. intros HX HY. apply free_is_eq; assumption. Qed.
(** For unequal arguments [is_neq] can return anything, zero included. *)
Theorem C32_is_neq_refuted x y v : row_ok cs x -> row_ok cs y -> admits cs (fa_is_neq F x y) (fun s' w => lc s' x = lc s' y \/ s' w = v).
Proof. intros HX HY. apply free_is_neq; assumption. Qed.
(** [descale] of a point with nonzero [z]: any multiple, mixed with the identity. *)
Theorem C32_descale_refuted p i t : row_ok cs (pa_x p) -> row_ok cs (pa_y p) -> row_ok cs (pa_z p) ->
  admits cs (pa_descale F p) (fun s' r => lc s' (pa_z p) = 0 \/
    lc s' (pa_x r) = lc s' (pa_x p) * i * t /\ lc s' (pa_y r) = lc s' (pa_y p) * i * t + (1 - t) /\ lc s' (pa_z r) = t).
Proof.
  intros HX HY HZ s HS. destruct (free_descale F cs p i t W (conj HX (conj HY HZ)) s HS) as (a & cs' & s' & E & S & A & R).
  exists a, cs', s'. split; [exact E|]. split; [exact S|]. split; [exact A|]. destruct R as [R|R]; [left; exact R|right]. unfold pval in R. injection R as R1 R2 R3. auto.
Qed.

(** ** Bits *)
Variables (val : F -> Z) (p : Z) (bits : F -> list bool) (pow2 : nat -> F) (modulus : F) (nbits : nat).
Hypothesis CF : circuit_field F val p bits pow2 modulus nbits.
Lemma bits_fit c n : (val c < 2 ^ Z.of_nat n)%Z -> (length (skip_zeros (bits c)) <= n)%nat.
Proof. intros H. apply skip_len. rewrite (cf_bits _ _ _ _ _ _ _ CF). exact H. Qed.
Theorem C30_range_check ws bs c : Forall (in_range cs) ws -> (0 < val c < 2 ^ Z.of_nat (length ws))%Z -> is_bits (own cs) ws bs -> (bval bs <= val c)%Z ->
  complete_at cs (fa_range_check F bits ws c) (fun _ _ => True).
Proof.
  intros HW HC HB HL. complete range_check_ok; try assumption; rewrite ?(cf_bits _ _ _ _ _ _ _ CF); [lia|apply bits_fit; lia|intros _; exists bs; auto|auto].
Qed.
Theorem C31_range_check ws c : Forall (in_range cs) ws -> (0 < val c < 2 ^ Z.of_nat (length ws))%Z ->
  sound_at cs (fa_range_check F bits ws c) (fun s _ => exists bs, is_bits s ws bs /\ (bval bs <= val c)%Z).
Proof.
  intros HW HC. eapply computes_sound. rewrite <- (cf_bits _ _ _ _ _ _ _ CF). apply (range_check_ok F False); try assumption; try contradiction; rewrite ?(cf_bits _ _ _ _ _ _ _ CF); [lia|apply bits_fit; lia].
Qed.
(** With fewer wires than the bound has bits nothing is checked, not even that they carry bits. *)
Theorem C31_range_check_short_refuted ws c : (2 ^ Z.of_nat (length ws) <= val c)%Z -> fa_range_check F bits ws c cs = Some (tt, cs).
Proof.
  intros H. apply range_check_short. destruct (Nat.lt_ge_cases (length ws) (length (skip_zeros (bits c)))) as [L|L]; [exact L|]. exfalso.
  rewrite <- (cf_bits _ _ _ _ _ _ _ CF), <- bval_skip in H. pose proof (bval_range (skip_zeros (bits c))).
  assert (2 ^ Z.of_nat (length (skip_zeros (bits c))) <= 2 ^ Z.of_nat (length ws))%Z by (apply Z.pow_le_mono_r; lia). lia.
Qed.
(** A zero bound panics. *)
Theorem C30_range_check_zero_panics ws : fa_range_check F bits ws 0 cs = None.
Proof. apply range_check_zero. rewrite (cf_bits _ _ _ _ _ _ _ CF). apply (cf_zero _ _ _ _ _ _ _ CF). Qed.
Theorem C30_to_bits x n : row_ok cs x -> (1 <= n <= 256)%nat ->
  complete_at cs (fa_to_bits F bits pow2 modulus nbits x n)
    (fun cs' ws => Forall (in_range cs') ws /\ length ws = n /\ exists bs, is_bits (own cs') ws bs /\ bval bs = (val (V x) mod 2 ^ Z.of_nat n)%Z).
Proof. intros HX HN. complete (to_bits_ok F True _ _ _ _ _ _ CF); try assumption. tauto. Qed.
(** The bits together with [enforce_eq_bits] are the bits of the argument ... *)
Theorem C31_bits_enforced x n : row_ok cs x -> (1 <= n <= 256)%nat ->
  sound_at cs (bind (fa_to_bits F bits pow2 modulus nbits x n) (fun bs => bind (fa_enforce_eq_bits F x bs) (fun _ => ret bs)))
    (fun s ws => exists bs, is_bits s ws bs /\ bval bs = val (lc s x)).
Proof. intros HX HN. eapply computes_sound. apply (bits_of_ok F False _ _ _ _ _ _ CF); try assumption. contradiction. Qed.
Theorem C30_enforce_eq_bits x ws bs : row_ok cs x -> Forall (in_range cs) ws -> is_bits (own cs) ws bs -> val (V x) = (bval bs mod p)%Z ->
  complete_at cs (fa_enforce_eq_bits F x ws) (fun _ _ => True).
Proof.
  intros HX HW HB HV. complete enforce_bits_ok; try assumption; [|auto]. intros _. apply (cf_inj _ _ _ _ _ _ _ CF).
  rewrite (bits_value_val F _ _ _ _ _ _ CF _ _ _ HB). exact HV.
Qed.
Theorem C31_enforce_eq_bits x ws : row_ok cs x -> Forall (in_range cs) ws ->
  sound_at cs (fa_enforce_eq_bits F x ws) (fun s _ => forall bs, is_bits s ws bs -> val (lc s x) = (bval bs mod p)%Z).
Proof.
  intros HX HW. eapply computes_sound. eapply computes_weaken; [apply (enforce_bits_ok F False cs x ws W HX HW); contradiction|intros cs' nw a _ _ O _; exact O|].
  cbv beta. intros s z S H bs HB. rewrite H. apply (bits_value_val F _ _ _ _ _ _ CF _ _ _ HB).
Qed.
(** ... but on their own they are only bits of some value in range, whatever the argument. *)
Theorem C31_to_bits_in_range x n : row_ok cs x -> (1 <= n <= 256)%nat ->
  sound_at cs (fa_to_bits F bits pow2 modulus nbits x n) (fun s ws => exists bs, is_bits s ws bs /\ (bval bs < p)%Z /\ (bval bs < 2 ^ Z.of_nat n)%Z).
Proof.
  intros HX HN. eapply computes_sound. eapply computes_weaken; [apply (to_bits_ok F False _ _ _ _ _ _ CF); eassumption|intros cs' nw a _ _ O _; exact O|].
  cbv beta. intros s ws S (bs & B & L). exists bs. split; [exact B|]. pose proof (bits_bound_lt F _ _ _ _ _ _ CF n). split; [lia|].
  unfold bits_bound in *. pose proof (cf_p _ _ _ _ _ _ _ CF). destruct (Nat.ltb_spec n 254); [lia|]. assert (2 ^ 254 <= 2 ^ Z.of_nat n)%Z by (apply Z.pow_le_mono_r; lia). lia.
Qed.
Theorem C32_to_bits_refuted x n k : row_ok cs x -> (1 <= n <= 256)%nat -> (0 <= k < 2 ^ Z.of_nat n)%Z -> (k < p)%Z ->
  admits cs (fa_to_bits F bits pow2 modulus nbits x n) (fun s' ws => exists bs, is_bits s' ws bs /\ bval bs = k).
Proof.
  intros HX HN HK HP. destruct (bits_exist n k HK) as (bs & L & E). intros s HS.
  destruct (free_to_bits F val p bits pow2 modulus nbits CF cs x n bs W HX HN L) with (s := s) as (a & cs' & s' & R1 & R2 & R3 & R4); [|exact HS|].
  { unfold bits_bound. destruct (Nat.ltb n 254); lia. }
  exists a, cs', s'. split; [exact R1|]. split; [exact R2|]. split; [exact R3|]. exists bs. auto.
Qed.

(** ** C33: points.  [pt s q] is the curve point the three coordinates of [q] stand for in [s]. *)
Variables (b b3 : F).
Hypothesis COK : curve_ok F b b3.
Hypothesis no2 : forall x : F, x * x * x + b <> 0.
Let Hb3 := proj1 COK. Let two := proj1 (proj2 COK). Let three := proj1 (proj2 (proj2 COK)). Let bnz := proj2 (proj2 (proj2 COK)).
Notation pt s q := (proj_pt F (pval F s q)).
Notation onp s q := (on_proj_curve F b (pval F s q)).
Implicit Types (q r : point_asg F).
Lemma ext_pval (cs0 cs' : r1cs F) q : extends cs0 cs' -> pok F cs0 q -> pval F (own cs') q = pval F (own cs0) q.
Proof. intros (A & B & n & C) R. apply (grow_pval F cs0 cs' n); [exact (conj A (conj B C))|exact R]. Qed.
(** Addition, for all pairs of points: equal, opposite and identity included. *)
Theorem C33_add q r : pok F cs q -> pok F cs r ->
  complete_at cs (pa_add F b3 q r) (fun cs' z => pok F cs' z /\ (onp (own cs) q -> onp (own cs) r -> onp (own cs') z /\ pt (own cs') z = pt_add (pt (own cs) q) (pt (own cs) r))) /\
  sound_at cs (pa_add F b3 q r) (fun s z => onp s q -> onp s r -> onp s z /\ pt s z = pt_add (pt s q) (pt s r)).
Proof.
  intros HQ HR. split.
  - complete pa_add_ok; try assumption. intros cs' z E [O H]. split; [exact O|]. rewrite <- !(ext_pval cs cs' _ E) by assumption. intros A B. rewrite H.
    apply (complete_ok F b b3 Hb3 two three bnz no2 _ _ A B).
  - eapply computes_sound. eapply computes_weaken; [apply (pa_add_ok F False b3 cs q r W HQ HR)|intros cs' nw a _ _ O _; exact O|].
    cbv beta. intros s z S H A B. rewrite H. apply (complete_ok F b b3 Hb3 two three bnz no2 _ _ A B).
Qed.
Theorem C33_double q : pok F cs q ->
  complete_at cs (pa_double F b3 q) (fun cs' z => pok F cs' z /\ (onp (own cs) q -> onp (own cs') z /\ pt (own cs') z = pt_add (pt (own cs) q) (pt (own cs) q))) /\
  sound_at cs (pa_double F b3 q) (fun s z => onp s q -> onp s z /\ pt s z = pt_add (pt s q) (pt s q)).
Proof.
  intros HQ. split.
  - complete pa_double_ok; try assumption. intros cs' z E [O H]. split; [exact O|]. rewrite <- !(ext_pval cs cs' _ E) by assumption. intros A. rewrite H.
    apply (double_complete F b b3 Hb3 two three bnz no2 _ A).
  - eapply computes_sound. eapply computes_weaken; [apply (pa_double_ok F False b3 cs q W HQ)|intros cs' nw a _ _ O _; exact O|].
    cbv beta. intros s z S H A. rewrite H. apply (double_complete F b b3 Hb3 two three bnz no2 _ A).
Qed.
(** Choosing between a point and the identity, and between two points. *)
Lemma select_meaning s q c (z : point_asg F) : pval F s z = Prj (lc s (pa_x q) * s c) (lc s (pa_y q) * s c + (1 - s c)) (lc s (pa_z q) * s c) ->
  (s c = 1 -> pval F s z = pval F s q) /\ (s c = 0 -> pt s z = Inf).
Proof.
  intros H. rewrite H. split; intros ->; [apply proj_ext; ring|]. rewrite <- (inf_pt F). apply f_equal, proj_ext; ring.
Qed.
Theorem C33_select q r c : pok F cs q -> pok F cs r -> in_range cs c ->
  (complete_at cs (pa_select_identity F q c) (fun cs' z => pok F cs' z /\ (own cs c = 1 -> pval F (own cs') z = pval F (own cs) q) /\ (own cs c = 0 -> pt (own cs') z = Inf)) /\
   sound_at cs (pa_select_identity F q c) (fun s z => (s c = 1 -> pval F s z = pval F s q) /\ (s c = 0 -> pt s z = Inf))) /\
  (complete_at cs (pa_conditional_select F q r c) (fun cs' z => pok F cs' z /\ (own cs c = 1 -> pval F (own cs') z = pval F (own cs) q) /\ (own cs c = 0 -> pval F (own cs') z = pval F (own cs) r)) /\
   sound_at cs (pa_conditional_select F q r c) (fun s z => (s c = 1 -> pval F s z = pval F s q) /\ (s c = 0 -> pval F s z = pval F s r))).
Proof.
  intros HQ HR HC. split; split.
  - complete pa_select_ok; try assumption. intros cs' z E [O H]. split; [exact O|]. rewrite <- (ext_own cs cs' c E HC), <- (ext_pval cs cs' q E HQ). apply select_meaning, H.
  - eapply computes_sound. eapply computes_weaken; [apply (pa_select_ok F False cs q c W HQ HC)|intros cs' nw a _ _ O _; exact O|]. cbv beta. intros s z S H. apply select_meaning, H.
  - complete pa_cond_select_ok; try assumption. intros cs' z E [O H]. split; [exact O|]. rewrite <- (ext_own cs cs' c E HC), <- (ext_pval cs cs' q E HQ), <- (ext_pval cs cs' r E HR). exact H.
  - eapply computes_sound. apply (pa_cond_select_ok F False cs q r c W HQ HR HC).
Qed.
(** Comparison with a public point. *)
Theorem C33_assert_equal q (t : proj F) : pok F cs q -> on_proj_curve F b t ->
  (onp (own cs) q -> pt (own cs) q = proj_pt F t -> complete_at cs (pa_assert_equal_public_point F q t) (fun _ _ => True)) /\
  sound_at cs (pa_assert_equal_public_point F q t) (fun s _ => onp s q -> pt s q = proj_pt F t).
Proof.
  intros HQ HT. split.
  - intros ON E. complete pa_assert_ok; try assumption; [|auto]. intros _. apply (assert_same F b _ _ ON HT), E.
  - eapply computes_sound. eapply computes_weaken; [apply (pa_assert_ok F False cs q t W HQ); contradiction|intros cs' nw a _ _ O _; exact O|].
    cbv beta. intros s z S H ON. apply (assert_same F b _ _ ON HT), H.
Qed.
Theorem C33_descale q : pok F cs q ->
  complete_at cs (pa_descale F q) (fun cs' z => pok F cs' z /\ pt (own cs') z = pt (own cs) q /\ (lc (own cs') (pa_z z) = 0 \/ lc (own cs') (pa_z z) = 1)).
Proof.
  intros HQ. complete pa_descale_ok; try assumption. intros cs' z E [[O H] _]. split; [exact O|]. specialize (H I). destruct (pval F (own cs) q) as [x y t] eqn:EQ.
  rewrite H. assert (EZ : lc (own cs') (pa_z z) = jz (pval F (own cs') z)) by reflexivity. rewrite EZ, H. unfold proj_pt. cbn [jx jy jz].
  destruct (keqb_spec F t 0) as [T|T]; cbn [jx jy jz].
  - rewrite keqb_refl. auto.
  - destruct (keqb_spec F 1 0) as [X|X]; [destruct (k1_neq0 F X)|]. split; [|auto]. f_equal; field; split; assumption.
Qed.
(** Multiplication by a scalar; whatever the assignment, the result is some multiple of the point ... *)
Theorem C33_scalar_point q x : pok F cs q -> row_ok cs x ->
  complete_at cs (pa_scalar_point F b3 bits pow2 modulus nbits q x)
    (fun cs' z => pok F cs' z /\ (onp (own cs) q -> onp (own cs') z /\ pt (own cs') z = pt_zmul (val (V x)) (pt (own cs) q))) /\
  sound_at cs (pa_scalar_point F b3 bits pow2 modulus nbits q x)
    (fun s z => onp s q -> exists k, (0 <= k < p)%Z /\ onp s z /\ pt s z = pt_zmul k (pt s q)).
Proof.
  intros HQ HX. split.
  - complete (pa_scalar_ok F True b b3 Hb3 two three bnz no2 _ _ _ _ _ _ CF); try assumption. intros cs' z E [[O H] _]. split; [exact O|]. exact (H I).
  - eapply computes_sound. apply (pa_scalar_ok F False b b3 Hb3 two three bnz no2 _ _ _ _ _ _ CF); assumption.
Qed.
(** ... and every multiple is possible, whatever the scalar. *)
Theorem C32_scalar_point_refuted q x k : pok F cs q -> row_ok cs x -> (0 <= k < p)%Z ->
  admits cs (pa_scalar_point F b3 bits pow2 modulus nbits q x)
    (fun s' z => onp s' q -> onp s' z /\ pt s' z = pt_zmul k (pt s' q)).
Proof. intros HQ HX HK. apply (free_scalar F val p bits pow2 modulus nbits CF b b3 Hb3 two three bnz no2 cs q x k W HQ HX HK). Qed.
End Gadgets.

(** ** The two drivers meet the conditions (nova/src/driver.rs:9-41). *)
Theorem C33_bn254_driver :
  circuit_field FrFld fr_val R_MOD fr_bits fr_pow2 k0 254 /\ curve_ok FrFld grumpkin_param_b grumpkin_param_b3 /\
  (forall x : FrFld, x * x * x + grumpkin_param_b <> 0) /\
  (forall k, (k < 254)%nat -> FieldModel.pow_of_2 FieldModel.fr (Z.of_nat k) = lf_limbs R_MOD (fr_pow2 k)) /\
  FieldModel.fsub FieldModel.fr (FieldModel.fmod FieldModel.fr) (FieldModel.fone FieldModel.fr) = lf_limbs R_MOD (ksub (k0 : FrFld) k1).
Proof. split; [exact fr_circuit|]. split; [exact grumpkin_ok|]. split; [exact grumpkin_no2|]. split; [exact fr_pow2_code|exact fr_modulus_code]. Qed.
Theorem C33_grumpkin_driver :
  circuit_field FqFld fq_val Q_MOD fq_bits fq_pow2 k0 254 /\ curve_ok FqFld g1_param_b g1_param_b3 /\
  (forall x : FqFld, x * x * x + g1_param_b <> 0) /\
  (forall k, (k < 254)%nat -> FieldModel.pow_of_2 FieldModel.fq (Z.of_nat k) = lf_limbs Q_MOD (fq_pow2 k)) /\
  FieldModel.fsub FieldModel.fq (FieldModel.fmod FieldModel.fq) (FieldModel.fone FieldModel.fq) = lf_limbs Q_MOD (ksub (k0 : FqFld) k1).
Proof. split; [exact fq_circuit|]. split; [exact g1_ok|]. split; [exact g1_no2|]. split; [exact fq_pow2_code|exact fq_modulus_code]. Qed.
(** Two witnesses, 3 and 5, in a satisfied system: they are not equal, and still [is_eq] can say one,
    [to_bits] of 3 can be the bits of 77, and the public copy of 3 can be 8. *)
Example C32_case : let cs := demo FrFld (fr_mk 3) (fr_mk 5) in let x := row_wire FrFld (Wit 0) in let y := row_wire FrFld (Wit 1) in
  wf_cs cs /\ row_ok cs x /\ row_ok cs y /\ satisfies (own cs) cs /\ lc (own cs) x <> lc (own cs) y /\
  (exists w cs' s', fa_is_eq FrFld x y cs = Some (w, cs') /\ satisfies s' cs' /\ lc s' x = fr_mk 3 /\ lc s' y = fr_mk 5 /\ s' w = 1) /\
  (exists ws cs' s' bs, fa_to_bits FrFld fr_bits fr_pow2 k0 254 x 8 cs = Some (ws, cs') /\ satisfies s' cs' /\ lc s' x = fr_mk 3 /\ is_bits s' ws bs /\ bval bs = 77%Z) /\
  (exists r cs' s', fa_inputize FrFld x cs = Some (r, cs') /\ satisfies s' cs' /\ lc s' x = fr_mk 3 /\ lc s' r = fr_mk 8).
Proof.
  cbv zeta. set (cs := demo FrFld (fr_mk 3) (fr_mk 5)). set (x := row_wire FrFld (Wit 0)). set (y := row_wire FrFld (Wit 1)).
  assert (W : wf_cs cs) by apply demo_wf. assert (X : row_ok cs x) by (apply demo_row; lia). assert (Y : row_ok cs y) by (apply demo_row; lia).
  assert (S : satisfies (own cs) cs) by apply demo_sat.
  split; [exact W|]. split; [exact X|]. split; [exact Y|]. split; [exact S|].
  split; [unfold x, y; rewrite !lc_wire; apply keqb_neq; vm_compute; reflexivity|].
  split; [|split].
  - destruct (C32_is_eq_refuted FrFld cs W x y 1 X Y _ S) as (w & cs' & s' & E & S' & A & R). exists w, cs', s'.
    split; [exact E|]. split; [exact S'|]. split; [unfold x; rewrite lc_wire, A by (cbn; lia); reflexivity|]. split; [unfold y; rewrite lc_wire, A by (cbn; lia); reflexivity|exact R].
  - destruct (C32_to_bits_refuted FrFld cs W _ _ _ _ _ _ fr_circuit x 8 77 X ltac:(lia) ltac:(cbn; lia)) with (s := own cs) as (w & cs' & s' & E & S' & A & bs & B & V); [rewrite R_MOD_val; lia|exact S|].
    exists w, cs', s', bs. split; [exact E|]. split; [exact S'|]. split; [unfold x; rewrite lc_wire, A by (cbn; lia); reflexivity|]. split; [exact B|exact V].
  - destruct (C32_inputize_refuted FrFld cs W x (fr_mk 8) X _ S) as (w & cs' & s' & E & S' & A & R). exists w, cs', s'.
    split; [exact E|]. split; [exact S'|]. split; [unfold x; rewrite lc_wire, A by (cbn; lia); reflexivity|exact R].
Qed.
(** A point in a circuit: the generator of Grumpkin. *)
Example C33_case : exists (cs : r1cs FrFld) q x, wf_cs cs /\ pok FrFld cs q /\ row_ok cs x /\ satisfies (own cs) cs /\
  on_proj_curve FrFld grumpkin_param_b (pval FrFld (own cs) q) /\ proj_pt FrFld (pval FrFld (own cs) q) = Pt grumpkin_generator_x grumpkin_generator_y.
Proof.
  set (cs := mkR1cs 0 [] [] [] [1] [grumpkin_generator_x; grumpkin_generator_y] : r1cs FrFld).
  assert (W : wf_cs cs) by (unfold wf_cs; cbn; auto 10).
  assert (X : row_ok cs (row_wire FrFld (Wit 0))) by (apply ok_wire; cbn; lia). assert (Y : row_ok cs (row_wire FrFld (Wit 1))) by (apply ok_wire; cbn; lia).
  exists cs, (PA (row_wire FrFld (Wit 0)) (row_wire FrFld (Wit 1)) (fa_constant FrFld 1)), (row_wire FrFld (Wit 0)).
  assert (EQ : pval FrFld (own cs) (PA (row_wire FrFld (Wit 0)) (row_wire FrFld (Wit 1)) (fa_constant FrFld 1)) = Prj grumpkin_generator_x grumpkin_generator_y 1).
  { unfold pval. cbn [pa_x pa_y pa_z]. rewrite !lc_wire, lc_constant by reflexivity. reflexivity. }
  split; [exact W|]. split; [split; [exact X|split; [exact Y|apply ok_constant, W]]|]. split; [exact X|]. split; [split; [reflexivity|constructor]|].
  rewrite EQ. split; [apply fin_on, grumpkin_generator_on|apply fin_pt].
Qed.

(** ** C58: the order on wires *)
Theorem C58_same_kind i j : wire_cmp (Inst i) (Inst j) = Nat.compare i j /\ wire_cmp (Wit i) (Wit j) = Nat.compare i j.
Proof. split; reflexivity. Qed.
(** Distinct wires of different kinds with the same index compare as equal. *)
Theorem C58_order_refuted i : wire_cmp (Inst i) (Wit i) = Eq /\ Inst i <> Wit i /\ wire_eqb (Inst i) (Wit i) = false.
Proof. split; [apply Nat.compare_refl|]. split; [discriminate|reflexivity]. Qed.
Example C58_case : wire_cmp ONE (Wit 0) = Eq /\ wire_cmp (Inst 3) (Inst 5) = Lt. Proof. split; reflexivity. Qed.
