(** Proofs about AsmModel.v: squaring. *)
From Coq Require Import ZArith List Bool Lia.
From Verif Require Import LimbModel LimbProofs MontProofs AsmModel AsmSpec AsmProofs AsmMul.
Import ListNotations.
Local Open Scope Z_scope.

Lemma square_row0_spec m s : wf (m_a m) -> no_lost_carry m square_row0 s = true ->
  let t := exec m square_row0 s in
  words_lo t /\ r13 t = w1 (m_a m) /\ r14 t = w2 (m_a m) /\ r15 t = w3 (m_a m) /\
  lowV t = w0 (m_a m) * val (m_a m).
Proof.
  destruct m as [[a0 a1 a2 a3] b p], s as [ax cx dx x8 x9 x10 x11 x12 x13 x14 x15 c z].
  intros (?&?&?&?). simpl_regs. unfold square_row0. start.
  repeat stp. intros _. cbn [exec]. unfold words_lo, lowV, val. simpl_regs.
  split; [auto 10|]. repeat (split; [reflexivity|]). drop_words. elim_all. cbn [bit]. ring.
Qed.

Lemma square_row1_spec m s : wf (m_a m) -> words_lo s ->
  r13 s = w1 (m_a m) -> r14 s = w2 (m_a m) -> r15 s = w3 (m_a m) ->
  no_lost_carry m square_row1 s = true ->
  let t := exec m square_row1 s in
  words8 t /\ V8 t = lowV s + B * w1 (m_a m) * val (m_a m).
Proof.
  destruct m as [[a0 a1 a2 a3] b p], s as [ax cx dx x8 x9 x10 x11 x12 x13 x14 x15 c z].
  intros (?&?&?&?) (?&?&?&?&?) E13 E14 E15. simpl_regs. subst x13 x14 x15.
  unfold square_row1. start. repeat stp. intros _. cbn [exec]. unfold words8, lowV, V8, val. simpl_regs.
  split; [auto 10 using word0|]. drop_words. elim_all. cbn [bit]. ring.
Qed.

Lemma square_row2_spec m s : wf (m_a m) -> words8 s ->
  no_lost_carry m square_row2 s = true ->
  let t := exec m square_row2 s in words8 t /\ V8 t = V8 s + B^2 * w2 (m_a m) * val (m_a m).
Proof.
  destruct m as [[a0 a1 a2 a3] b p], s as [ax cx dx x8 x9 x10 x11 x12 x13 x14 x15 c z].
  intros (?&?&?&?) (?&?&?&?&?&?&?&?). simpl_regs.
  unfold square_row2. start. repeat stp. intros _. cbn [exec]. unfold words8, V8, val. simpl_regs.
  split; [auto 10|]. drop_words. elim_all. cbn [bit]. ring.
Qed.

Lemma square_row3_spec m s : wf (m_a m) -> words8 s ->
  no_lost_carry m square_row3 s = true ->
  let t := exec m square_row3 s in
  words8 t /\ V8 t + B^8 * bit (cf t) = V8 s + B^3 * w3 (m_a m) * val (m_a m).
Proof.
  destruct m as [[a0 a1 a2 a3] b p], s as [ax cx dx x8 x9 x10 x11 x12 x13 x14 x15 c z].
  intros (?&?&?&?) (?&?&?&?&?&?&?&?). simpl_regs.
  unfold square_row3. start. repeat stp. intros _. cbn [exec]. unfold words8, V8, val. simpl_regs.
  split; [auto 10|]. drop_words. elim_all. cbn [bit]. ring.
Qed.

Definition square_rows : list instr := square_row0 ++ square_row1 ++ square_row2 ++ square_row3.

Lemma square_rows_spec m s : wf (m_a m) -> no_lost_carry m square_rows s = true ->
  let t := exec m square_rows s in words8 t /\ V8 t = val (m_a m) * val (m_a m).
Proof.
  intros Wa. unfold square_rows. rewrite !nlc_app, !exec_app. intros H.
  apply andb_prop in H as [H0 H]. apply andb_prop in H as [H1 H]. apply andb_prop in H as [H2 H3].
  destruct (square_row0_spec m s Wa H0) as (W0 & X13 & X14 & X15 & E0).
  set (s0 := exec m square_row0 s) in *. clearbody s0.
  destruct (square_row1_spec m s0 Wa W0 X13 X14 X15 H1) as (W1 & E1).
  set (s1 := exec m square_row1 s0) in *. clearbody s1.
  destruct (square_row2_spec m s1 Wa W1 H2) as (W2 & E2).
  set (s2 := exec m square_row2 s1) in *. clearbody s2.
  destruct (square_row3_spec m s2 Wa W2 H3) as (W3 & E3).
  set (t := exec m square_row3 s2) in *. clearbody t. cbv zeta. split; [exact W3|].
  assert (E : V8 t + B^8 * bit (cf t) = val (m_a m) * val (m_a m)).
  { rewrite E3, E2, E1, E0. unfold val. ring. }
  pose proof (V8_nonneg t W3). pose proof (val_range _ Wa).
  assert (val (m_a m) * val (m_a m) < B^4 * B^4) by (apply Z.mul_lt_mono_nonneg; lia).
  destruct (cf t); cbn [bit] in E; lia.
Qed.

Lemma asm_square_spec s a p : mod_ok p ASM_INV -> wf a -> val a * val a < val p * B^4 ->
  no_lost_carry (MemOf a a p) square_body s = true ->
  wf (asm_square s a p) /\ val (asm_square s a p) < val p /\
  exists M, val (asm_square s a p) * B^4 = val a * val a + M * val p.
Proof.
  intros Hm Wa Hlt H. set (m := MemOf a a p) in *.
  assert (EB : square_body = square_rows ++ redc_all) by reflexivity.
  rewrite EB, nlc_app in H. apply andb_prop in H as [H1 H2].
  destruct (square_rows_spec m s Wa H1) as [W1 E1].
  destruct (redc_spec m _ Hm W1 ltac:(rewrite E1; exact Hlt) H2) as (W2 & L2 & M & E2).
  rewrite <- exec_app, <- EB in W2, L2, E2.
  destruct (final_sub_spec m _ (mo_wf _ _ Hm) W2 L2) as (W3 & L3 & k & E3).
  assert (EO : asm_square s a p =
    (let t := exec m final_sub (exec m square_body s) in L4 (r8 t) (r9 t) (r10 t) (r11 t))).
  { unfold asm_square, square_code. rewrite exec_app. reflexivity. }
  rewrite EO. cbv zeta. split; [exact W3|]. split; [exact L3|].
  exists (M + k * B^4). rewrite E3. cbn [m_a m_b m_m m] in *.
  rewrite Z.mul_add_distr_r, E2, E1. ring.
Qed.
