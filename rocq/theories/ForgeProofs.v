(** What an adversary can make the gadgets return. *)
From Coq Require Import ZArith List Bool Lia Field.
From Verif Require Import Algebra CurveSpec CurveGroup WeierModel WeierProofs GroupLib CurveAb R1csModel R1csSpec R1csProofs GadgetProofs RangeProofs CompleteAdd CurveGadget R1csShape.
Import ListNotations.
Local Open Scope fld_scope.

Lemma bits_exist : forall n k, (0 <= k < 2 ^ Z.of_nat n)%Z -> exists bs, length bs = n /\ bval bs = k.
Proof.
  induction n as [|n IH]; intros k H.
  - exists []. cbn in *. split; [reflexivity|lia].
  - rewrite Nat2Z.inj_succ, Z.pow_succ_r in H by lia. destruct (Z.lt_ge_cases k (2 ^ Z.of_nat n)) as [L|L].
    + destruct (IH k ltac:(lia)) as (bs & L1 & V1). exists (false :: bs). cbn [length bval Z.b2z]. split; [congruence|lia].
    + destruct (IH (k - 2 ^ Z.of_nat n)%Z ltac:(lia)) as (bs & L1 & V1). exists (true :: bs). cbn [length bval Z.b2z]. rewrite L1, V1. split; [reflexivity|lia].
Qed.

Section Forge.
Variable F : Fld.
Add Field fofield : (kth F).
Implicit Types (cs : r1cs F) (s : asg F) (x y z : row F).
Notation HON := True.
Lemma is_neq_adv_ok cs x y o mu no : wf_cs cs -> row_ok cs x -> row_ok cs y ->
  (lc (own cs) x - lc (own cs) y) * mu = o -> (lc (own cs) x - lc (own cs) y) * no = 0 ->
  computes HON cs (is_neq_adv F o mu no x y) (fun cs' w => in_range cs' w /\ own cs' w = o) (fun _ _ => True).
Proof.
  intros W HX HY HM HNO. unfold is_neq_adv. apply value_bind; [apply HX|]. apply value_bind; [apply HY|].
  set (xv := lc (own cs) x) in *. set (yv := lc (own cs) y) in *.
  eapply computes_bind; [apply new_w_ok, W|]. intros out cs1 n1 W1 G1 [O1 V1] _. lift G1.
  eapply computes_bind; [apply witness_ok, W1|]. intros mw cs2 n2 W2 G2 [O2 V2] _. lift G2.
  eapply computes_bind; [apply mul_ok; [exact W2|unfold fa_minus; rok|rok]|]. intros m cs3 n3 W3 G3 O3 R3. lift G3.
  assert (GG : grow cs cs3 (n1 ++ n2 ++ n3)) by (repeat (eapply grow_trans; [eassumption|]); eassumption).
  assert (G13 : grow cs1 cs3 (n2 ++ n3)) by (eapply grow_trans; eassumption).
  assert (EX : lc (own cs3) x = xv) by (apply (grow_lc F _ _ _ _ GG), HX). assert (EY : lc (own cs3) y = yv) by (apply (grow_lc F _ _ _ _ GG), HY).
  assert (EM : lc (own cs3) mw = lc (own cs2) mw) by (apply (grow_lc F _ _ _ _ G3), O2).
  assert (EO : own cs3 out = o) by (rewrite (grow_own F _ _ _ _ G13 O1); exact V1).
  eapply computes_bind; [apply enforce_eq_ok; [exact W3|rok|unfold fa_bit; rok|]|].
  { intros h. rewrite (R3 h). lcs. rewrite EX, EY, EM, EO, V2. exact HM. }
  intros [] cs4 n4 W4 G4 _ _. lift G4.
  eapply computes_bind; [apply wire_bind; [assumption|apply new_w_ok, W4]|]. intros nout cs5 n5 W5 G5 [O5 V5] _. lift G5.
  eapply computes_bind; [apply mul_ok; [exact W5|unfold fa_minus; rok|unfold fa_bit; rok]|]. intros m2 cs6 n6 W6 G6 O6 R6. lift G6.
  assert (G36 : grow cs3 cs6 (n4 ++ n5 ++ n6)) by (repeat (eapply grow_trans; [eassumption|]); eassumption).
  eapply computes_bind; [apply enforce_eq_ok; [exact W6|rok|rok|]|].
  { intros h. rewrite (R6 h). pose proof (own_one F cs6 W6). lcs. rewrite !(grow_lc F _ _ _ _ G36) by (apply (grow_ok F _ _ _ _ GG HX) || apply (grow_ok F _ _ _ _ GG HY)).
    rewrite EX, EY, (grow_own F _ _ _ _ G6 O5), V5. exact HNO. }
  intros [] cs7 n7 W7 G7 _ _. lift G7. apply computes_ret; [exact W7| |auto].
  split; [assumption|]. rewrite (grow_own F _ _ _ _ G7), (grow_own F _ _ _ _ G36) by assumption. exact EO.
Qed.
Lemma descale_adv_ok cs p o mu no iv : wf_cs cs -> pok F cs p -> lc (own cs) (pa_z p) * mu = o -> lc (own cs) (pa_z p) * no = 0 ->
  computes HON cs (descale_adv F o mu no iv p)
    (fun cs' r => pval F (own cs') r = Prj (lc (own cs) (pa_x p) * iv * o) (lc (own cs) (pa_y p) * iv * o + (1 - o)) o)
    (fun _ _ => True).
Proof.
  intros W HP HM HNO. pose proof HP as (HX & HY & HZ). unfold descale_adv. destruct p as [x y z]. cbn [pa_x pa_y pa_z] in *.
  pose proof (own_one F cs W) as OO.
  eapply computes_bind; [apply is_neq_adv_ok; [assumption|assumption|rok| |]; rewrite lc_constant by assumption|].
  { rewrite <- HM. ring. } { transitivity (lc (own cs) z * no); [ring|exact HNO]. }
  intros tv cs1 n1 W1 G1 [O1 V1] _. lift G1.
  apply value_bind; [apply (grow_ok F _ _ _ _ G1 HZ)|].
  eapply computes_bind; [apply witness_ok, W1|]. intros i cs2 n2 W2 G2 [O2 V2] _. lift G2.
  eapply computes_bind; [apply mul_ok; [assumption|rok|rok]|]. intros t0 cs3 n3 W3 G3 O3 R3. lift G3.
  eapply computes_bind; [apply mul_ok; [assumption|rok|rok]|]. intros t1 cs4 n4 W4 G4 O4 R4. lift G4.
  assert (G24 : grow cs2 cs4 (n3 ++ n4)) by (eapply grow_trans; eassumption).
  assert (G14 : grow cs1 cs4 (n2 ++ n3 ++ n4)) by (eapply grow_trans; eassumption).
  assert (G02 : grow cs cs2 (n1 ++ n2)) by (eapply grow_trans; eassumption).
  assert (G03 : grow cs cs3 ((n1 ++ n2) ++ n3)) by (eapply grow_trans; eassumption).
  assert (G04 : grow cs cs4 (((n1 ++ n2) ++ n3) ++ n4)) by (eapply grow_trans; eassumption).
  eapply computes_weaken; [apply (pa_select_ok F HON cs4 (PA t0 t1 (fa_constant F 1)) tv W4); [split; [|split]; cbn [pa_x pa_y pa_z]; rok|assumption]| |auto].
  intros cs' nw r W' G' O' R'. cbn [pa_x pa_y pa_z].
  specialize (R' I). rewrite R'. cbn [pa_x pa_y pa_z]. pose proof (own_one F cs' W') as OO'. rewrite lc_constant by assumption.
  rewrite (grow_own F _ _ _ _ G') by assumption. rewrite (grow_own F _ _ _ _ G14) by assumption. rewrite V1.
  rewrite !(grow_lc F _ _ _ _ G') by (apply O4 || apply (grow_ok F _ _ _ _ G4 O3)). rewrite (R4 I).
  rewrite (grow_lc F _ _ _ t0 G4), (R3 I) by apply O3.
  rewrite (grow_lc F _ _ _ i G24), (grow_lc F _ _ _ i G3), V2 by apply O2.
  rewrite (grow_lc F _ _ _ _ G03), (grow_lc F _ _ _ _ G04) by (apply HX || apply HY).
  apply proj_ext; ring.
Qed.

Variables (val : F -> Z) (p : Z) (bits : F -> list bool) (pow2 : nat -> F) (modulus : F) (nbits : nat).
Hypothesis CF : circuit_field F val p bits pow2 modulus nbits.
Let Hbits := cf_bits _ _ _ _ _ _ _ CF.
Lemma to_bits_adv_ok cs x n chosen : wf_cs cs -> row_ok cs x -> (1 <= n <= 256)%nat -> length chosen = 256%nat -> (bval (skipn (256 - n) chosen) <= bits_bound p n)%Z ->
  computes HON cs (to_bits_adv F bits pow2 modulus nbits chosen x n)
    (fun cs' ws => Forall (in_range cs') ws /\ is_bits (own cs') ws (skipn (256 - n) chosen)) (fun _ _ => True).
Proof.
  intros W HX HN Hlen BB. unfold to_bits_adv. destruct (Nat.ltb_spec 256 n) as [X|_]; [lia|]. apply value_bind; [apply HX|].
  eapply computes_bind; [apply for_bits_ok, W|]. intros ws cs1 n1 W1 G1 [O1 B1] _. lift G1. cbv zeta.
  set (ws' := skipn (256 - n) ws). set (bs := skipn (256 - n) chosen) in *.
  assert (LB : length bs = n) by (unfold bs; rewrite skipn_length, Hlen; lia).
  assert (B2 : is_bits (own cs1) ws' bs) by (apply is_bits_skipn, B1).
  assert (LW : length ws' = n) by (rewrite (Forall2_len _ _ _ B2); exact LB).
  assert (O2 : Forall (in_range cs1) ws') by (apply Forall_skipn, O1).
  clearbody ws' bs.
  assert (RC : exists c, (if Nat.ltb n nbits then fa_range_check_bits F bits pow2 ws' n else fa_range_check F bits ws' (modulus - 1)) = fa_range_check F bits ws' c /\ val c = bits_bound p n).
  { rewrite (cf_nbits _ _ _ _ _ _ _ CF). unfold bits_bound. destruct (Nat.ltb_spec n 254) as [L|L].
    - exists (pow2 n - 1). split; [reflexivity|]. apply (cf_pow2 _ _ _ _ _ _ _ CF). lia.
    - exists (modulus - 1). split; [reflexivity|]. apply (cf_mod _ _ _ _ _ _ _ CF). }
  destruct RC as (c & EC & VC). rewrite EC.
  assert (B0 : (0 < bits_bound p n < 2 ^ Z.of_nat n)%Z).
  { pose proof (cf_p _ _ _ _ _ _ _ CF). unfold bits_bound. destruct (Nat.ltb_spec n 254) as [L|L].
    - assert (2 ^ 1 <= 2 ^ Z.of_nat n)%Z by (apply Z.pow_le_mono_r; lia). lia.
    - assert (2 ^ 254 <= 2 ^ Z.of_nat n)%Z by (apply Z.pow_le_mono_r; lia). lia. }
  eapply computes_bind; [apply (range_check_ok F HON bits cs1 ws' c W1 O2); rewrite ?Hbits, ?VC|].
  - lia.
  - rewrite LW. apply skip_len. rewrite Hbits, VC. lia.
  - intros _. exists bs. split; [exact B2|]. exact BB.
  - intros u cs2 n2 W2 G2 _ _. lift G2. apply computes_ret; [exact W2| |auto].
    split; [assumption|]. apply (is_bits_own _ _ _ _ _ _ G2); assumption.
Qed.
Variables (b b3 : F).
Hypothesis Hb3 : b3 = b + b + b.
Hypothesis two : (1 + 1 : F) <> 0.
Hypothesis three : (1 + 1 + 1 : F) <> 0.
Hypothesis bnz : b <> 0.
Hypothesis no2 : forall x : F, x * x * x + b <> 0.
Notation onp := (on_proj_curve F b).
Lemma scalar_adv_ok cs q x chosen : wf_cs cs -> pok F cs q -> row_ok cs x -> length chosen = 256%nat -> (bval chosen < p)%Z ->
  computes HON cs (scalar_adv F b3 bits pow2 modulus nbits chosen q x)
    (fun cs' r => onp (pval F (own cs) q) -> onp (pval F (own cs') r) /\ proj_pt F (pval F (own cs') r) = pt_zmul (bval chosen) (proj_pt F (pval F (own cs) q)))
    (fun _ _ => True).
Proof.
  intros W HP HX HL HB. unfold scalar_adv. eapply computes_bind; [apply to_bits_adv_ok; [assumption|assumption|lia|exact HL|]|].
  { change (256 - 256)%nat with 0%nat. cbn [skipn]. unfold bits_bound. change (Nat.ltb 256 254) with false. cbv iota. lia. }
  change (256 - 256)%nat with 0%nat. cbn [skipn]. intros ws cs1 n1 W1 G1 (O1 & B1) _.
  assert (PI : pok F cs1 (pa_identity F)) by (split; [|split]; cbn; apply (ok_constant F), W1).
  eapply computes_weaken; [apply (sp_fold_ok F HON b b3 Hb3 two three bnz no2 q ws cs1 (pa_identity F) W1); [apply (grow_pok F _ _ _ _ G1 HP)|assumption|assumption]| |auto].
  intros cs' nw r W' G' O' R' HPO. assert (G0 : grow cs cs' (n1 ++ nw)) by (eapply grow_trans; eassumption).
  rewrite <- (grow_pval F _ _ _ _ G0 HP) in HPO |- *. pose proof (on_proj_on F b _ HPO) as ON.
  assert (EI : pval F (own cs') (pa_identity F) = Prj (0:F) 1 0) by (unfold pval, pa_identity; cbn [pa_x pa_y pa_z]; rewrite !lc_constant by (apply (own_one F), W'); reflexivity).
  destruct (R' I chosen (cmk F b _ ON) 0%Z (is_bits_own F _ _ _ _ _ G' O1 B1) HPO eq_refl) as [A1 A2]; [rewrite EI; apply inf_on|rewrite EI; apply inf_pt|].
  split; [exact A1|]. rewrite A2. rewrite Z.mul_0_l, Z.add_0_l, cval_zmul. reflexivity.
Qed.

(** ** What the gadgets leave open *)
Lemma free_witness cs (b0 : bool) v : wf_cs cs -> admits cs (bin_witness F b0) (fun s' w => s' w = v).
Proof.
  intros W. apply (admits_by F cs _ _ W). intros s [S _]. exists (new_w F v), (fun cs' w => in_range cs' w /\ own cs' w = v), (fun _ _ => True).
  split; [apply sh_new_w|]. split; [apply new_w_ok, wv_wf; assumption|]. intros a cs' _ _ [_ H] _. exact H.
Qed.
Lemma free_not cs w0 v : wf_cs cs -> in_range cs w0 -> admits cs (bin_not F w0) (fun s' w => s' w = v).
Proof.
  intros W H0. apply (admits_by F cs _ _ W). intros s [S _].
  exists (bind (wire_of w0) (fun _ => new_w F v)), (fun cs' w => in_range cs' w /\ own cs' w = v), (fun _ _ => True).
  split; [unfold bin_not; apply sh_wire; intros; apply sh_new_w|]. split; [apply wire_bind; [apply wv_in, H0|apply new_w_ok, wv_wf; assumption]|].
  intros a cs' _ _ [_ H] _. exact H.
Qed.
Lemma and_run cs w1 w2 : in_range cs w1 -> in_range cs w2 -> exists v, bin_and F w1 w2 cs = new_w F v cs.
Proof.
  intros H1 H2. unfold bin_and, bind, wire_of. rewrite (wire_value_ok F cs w1 H1).
  destruct (keqb (own cs w1) 1); [rewrite (wire_value_ok F cs w2 H2); destruct (keqb (own cs w2) 1)|]; eexists; reflexivity.
Qed.
Lemma admits_eq {A} cs (g g' : G F A) R : g cs = g' cs -> admits cs g' R -> admits cs g R.
Proof. intros E H s HS. destruct (H s HS) as (a & cs' & s' & E' & rest). exists a, cs', s'. split; [rewrite E; exact E'|exact rest]. Qed.
Lemma free_new_w cs u v : wf_cs cs -> admits cs (new_w F u) (fun s' w => s' w = v).
Proof.
  intros W. apply (admits_by F cs _ _ W). intros s [S _]. exists (new_w F v), (fun cs' w => in_range cs' w /\ own cs' w = v), (fun _ _ => True).
  split; [apply sh_new_w|]. split; [apply new_w_ok, wv_wf; assumption|]. intros a cs' _ _ [_ H] _. exact H.
Qed.
Lemma free_and cs w1 w2 v : wf_cs cs -> in_range cs w1 -> in_range cs w2 -> admits cs (bin_and F w1 w2) (fun s' w => s' w = v).
Proof. intros W H1 H2. destruct (and_run cs w1 w2 H1 H2) as [u E]. apply (admits_eq _ _ _ _ E), free_new_w, W. Qed.
Lemma free_inputize cs x v : wf_cs cs -> row_ok cs x -> admits cs (fa_inputize F x) (fun s' r => lc s' r = v).
Proof.
  intros W HX. apply (admits_by F cs _ _ W). intros s [S _].
  exists (bind (value_of x) (fun _ => fa_instance F v)), (fun cs' z => row_ok cs' z /\ lc (own cs') z = v), (fun _ _ => True).
  split; [unfold fa_inputize, fa_instance; apply sh_value; intros u u'; apply sh_bind; [apply sh_new_x|]; intros w; apply sh_ret|].
  split; [apply value_bind; [apply wv_range, HX|apply instance_ok, wv_wf; assumption]|].
  intros a cs' _ _ [_ H] _. exact H.
Qed.
Lemma free_is_neq cs x y v : wf_cs cs -> row_ok cs x -> row_ok cs y -> admits cs (fa_is_neq F x y) (fun s' w => lc s' x = lc s' y \/ s' w = v).
Proof.
  intros W HX HY. apply (admits_by F cs _ _ W). intros s [S _]. destruct (kdec F (lc s x) (lc s y)) as [E|N].
  - exists (is_neq_adv F 0 0 0 x y), (fun cs' w => in_range cs' w /\ own cs' w = 0), (fun _ _ => True). split; [apply sh_is_neq|].
    split; [apply is_neq_adv_ok; [apply wv_wf; assumption|apply wv_ok, HX|apply wv_ok, HY|ring|ring]|].
    intros a cs' _ AG _ _. left.
    assert (EQ : forall r, Forall (in_range cs) (map fst r) -> lc (own cs') r = lc s r).
    { induction r as [|[w c] r IH]; cbn [map fst]; intros H; [reflexivity|]. inversion H; subst. rewrite !lc_cons, IH, AG by assumption. reflexivity. }
    rewrite !EQ by (apply HX || apply HY). exact E.
  - assert (D : lc s x - lc s y <> 0) by (intros D; apply (proj1 (ksub_eq0 F _ _)) in D; contradiction).
    exists (is_neq_adv F v (v / (lc s x - lc s y)) 0 x y), (fun cs' w => in_range cs' w /\ own cs' w = v), (fun _ _ => True). split; [apply sh_is_neq|].
    split; [apply is_neq_adv_ok; [apply wv_wf; assumption|apply wv_ok, HX|apply wv_ok, HY| |ring]|intros a cs' _ _ [_ H] _; right; exact H].
    rewrite !wv_lc by (apply HX || apply HY). field. exact D.
Qed.
Lemma free_is_eq cs x y v : wf_cs cs -> row_ok cs x -> row_ok cs y -> admits cs (fa_is_eq F x y) (fun s' w => s' w = v).
Proof.
  intros W HX HY. apply (admits_by F cs _ _ W). intros s [S _].
  exists (bind (is_neq_adv F 0 0 0 x y) (fun n => bind (wire_of n) (fun _ => new_w F v))), (fun cs' w => in_range cs' w /\ own cs' w = v), (fun _ _ => True).
  split; [unfold fa_is_eq; apply sh_bind; [apply sh_is_neq|]; intros n; unfold bin_not; apply sh_wire; intros; apply sh_new_w|].
  split; [|intros a cs' _ _ [_ H] _; exact H].
  eapply computes_bind; [apply is_neq_adv_ok; [apply wv_wf; assumption|apply wv_ok, HX|apply wv_ok, HY|ring|ring]|].
  intros n cs1 n1 W1 G1 [O1 _] _. apply wire_bind; [exact O1|]. eapply computes_weaken; [apply new_w_ok, W1| |]; auto.
Qed.
Lemma free_to_bits cs x n bs : wf_cs cs -> row_ok cs x -> (1 <= n <= 256)%nat -> length bs = n -> (bval bs <= bits_bound p n)%Z ->
  admits cs (fa_to_bits F bits pow2 modulus nbits x n) (fun s' ws => is_bits s' ws bs).
Proof.
  intros W HX HN HL HB. apply (admits_by F cs _ _ W). intros s [S _]. set (ch := repeat false (256 - n) ++ bs).
  assert (LC : length ch = 256%nat) by (unfold ch; rewrite app_length, repeat_length; lia).
  assert (SK : skipn (256 - n) ch = bs) by (unfold ch; rewrite skipn_app, repeat_length, Nat.sub_diag, skipn_all2 by (rewrite repeat_length; lia); reflexivity).
  exists (to_bits_adv F bits pow2 modulus nbits ch x n), (fun cs' ws => Forall (in_range cs') ws /\ is_bits (own cs') ws (skipn (256 - n) ch)), (fun _ _ => True).
  split; [apply sh_to_bits; intros v; rewrite LC; apply (cf_len _ _ _ _ _ _ _ CF)|].
  split; [apply to_bits_adv_ok; [apply wv_wf; assumption|apply wv_ok, HX|exact HN|exact LC|rewrite SK; exact HB]|].
  intros a cs' _ _ [_ H] _. rewrite SK in H. exact H.
Qed.
Lemma agree_lc cs s s' r : (forall w, in_range cs w -> s' w = s w) -> Forall (in_range cs) (map fst r) -> lc s' r = lc s r.
Proof. intros AG. induction r as [|[w c] r IH]; cbn [map fst]; intros H; [reflexivity|]. inversion H; subst. rewrite !lc_cons, IH, AG by assumption. reflexivity. Qed.
Lemma agree_pval cs s s' q : (forall w, in_range cs w -> s' w = s w) -> pok F cs q -> pval F s' q = pval F s q.
Proof. intros AG (A & B & C). unfold pval. rewrite !(agree_lc cs s s' _ AG) by (apply A || apply B || apply C). reflexivity. Qed.
Lemma wv_pok s cs q : pok F cs q -> pok F (with_values F s cs) q.
Proof. intros (A & B & C). split; [apply wv_ok, A|split; [apply wv_ok, B|apply wv_ok, C]]. Qed.
Lemma free_descale cs q i t : wf_cs cs -> pok F cs q ->
  admits cs (pa_descale F q) (fun s' r => lc s' (pa_z q) = 0 \/ pval F s' r = Prj (lc s' (pa_x q) * i * t) (lc s' (pa_y q) * i * t + (1 - t)) t).
Proof.
  intros W HP. pose proof HP as (HX & HY & HZ). apply (admits_by F cs _ _ W). intros s [S _]. destruct (kdec F (lc s (pa_z q)) 0) as [E|N].
  - exists (descale_adv F 0 0 0 0 q), (fun _ _ => True), (fun _ _ => True). split; [apply sh_descale|]. split.
    + eapply computes_weaken; [apply descale_adv_ok; [apply wv_wf; assumption|apply wv_pok, HP|ring|ring]| |]; auto.
    + intros a cs' _ AG _ _. left. rewrite (agree_lc cs s _ _ AG) by apply HZ. exact E.
  - eexists (descale_adv F t (t / lc s (pa_z q)) 0 i q), _, _. split; [apply sh_descale|]. split.
    + apply descale_adv_ok; [apply wv_wf; assumption|apply wv_pok, HP| |ring]. rewrite wv_lc by apply HZ. field. exact N.
    + cbv beta. intros a cs' _ AG H _. right. rewrite H. rewrite !wv_lc, !(agree_lc cs s _ _ AG) by (apply HX || apply HY). reflexivity.
Qed.
Lemma free_scalar cs q x k : wf_cs cs -> pok F cs q -> row_ok cs x -> (0 <= k < p)%Z ->
  admits cs (pa_scalar_point F b3 bits pow2 modulus nbits q x)
    (fun s' r => onp (pval F s' q) -> onp (pval F s' r) /\ proj_pt F (pval F s' r) = pt_zmul k (proj_pt F (pval F s' q))).
Proof.
  intros W HP HX HK. pose proof (cf_p _ _ _ _ _ _ _ CF) as PP.
  destruct (bits_exist 256 k) as (ch & LC & VC).
  { change (Z.of_nat 256) with 256%Z. assert (2 ^ 254 < 2 ^ 256)%Z by (apply Z.pow_lt_mono_r; lia). lia. }
  apply (admits_by F cs _ _ W). intros s [S HG].
  eexists (scalar_adv F b3 bits pow2 modulus nbits ch q x), _, _. split; [apply sh_scalar; intros v; rewrite LC; apply (cf_len _ _ _ _ _ _ _ CF)|].
  split; [apply scalar_adv_ok; [apply wv_wf; assumption|apply wv_pok, HP|apply wv_ok, HX|exact LC|lia]|].
  cbv beta. intros a cs' _ AG H _. rewrite VC in H.
  replace (pval F (own (with_values F s cs)) q) with (pval F s q) in H by (unfold pval; rewrite !wv_lc by apply HP; reflexivity).
  rewrite !(agree_pval cs s _ q AG HP). exact H.
Qed.
End Forge.
