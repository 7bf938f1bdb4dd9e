(** Proofs about AsmModel.v: multiplication and squaring. *)
From Coq Require Import ZArith List Bool Lia.
From Verif Require Import LimbModel LimbProofs MontProofs AsmModel AsmSpec AsmProofs.
Import ListNotations.
Local Open Scope Z_scope.

Lemma exec_cons m i rest s : exec m (i :: rest) s = exec m rest (step m i s).
Proof. reflexivity. Qed.

Lemma exec_app m c1 c2 s : exec m (c1 ++ c2) s = exec m c2 (exec m c1 s).
Proof. revert s. induction c1 as [|i c1 IH]; intros s; [reflexivity|]. cbn [app exec]. apply IH. Qed.

Lemma nlc_cons m i rest s : no_lost_carry m (i :: rest) s =
  (match i with ADC _ (Imm 0) => negb (cf (step m i s)) | _ => true end)
  && no_lost_carry m rest (step m i s).
Proof. reflexivity. Qed.

Lemma nlc_app m c1 c2 s :
  no_lost_carry m (c1 ++ c2) s = no_lost_carry m c1 s && no_lost_carry m c2 (exec m c1 s).
Proof.
  revert s. induction c1 as [|i c1 IH]; intros s; [reflexivity|].
  rewrite <- app_comm_cons, !nlc_cons, exec_cons, IH. apply andb_assoc.
Qed.

Lemma mul_halves x y : word x -> word y ->
  exists l h, lo (x * y) = l /\ hi (x * y) = h /\ word l /\ word h /\ l + B * h = x * y.
Proof.
  intros Hx Hy. exists (lo (x * y)), (hi (x * y)). repeat split; try apply lo_range; try apply hi_range.
  apply lohi. pose proof (mac_no_overflow 0 x y 0 word0 Hx Hy word0). lia.
Qed.

Lemma sum_carry x y c : word x -> word y ->
  exists r k, sum64 x y c = r /\ carry64 x y c = k /\ word r /\ r + B * bit k = x + y + bit c.
Proof.
  intros Hx Hy. destruct (sum64_spec x y c Hx Hy) as [W E].
  exists (sum64 x y c), (carry64 x y c). auto.
Qed.

(** One instruction of the goal [no_lost_carry m code s = true -> R (exec m code s)]. *)
Ltac abstr :=
  repeat match goal with
  | |- context [lo (?x * ?y)] =>
      let l := fresh "l" in let h := fresh "h" in let E := fresh "E" in
      destruct (mul_halves x y) as (l & h & -> & -> & ? & ? & E); [auto using word0..|]
  | |- context [sum64 ?x ?y ?c] =>
      let r := fresh "y" in let k := fresh "k" in let E := fresh "E" in
      destruct (sum_carry x y c) as (r & k & -> & -> & ? & E); [auto using word0..|]
  | |- context [Z.lxor ?x ?x] => rewrite (Z.lxor_nilpotent x)
  | |- context [?x =? 0] => let z := fresh "z" in generalize (x =? 0); intros z
  end.

Ltac nlc :=
  lazymatch goal with
  | |- true && _ = true -> _ => rewrite andb_true_l
  | |- negb ?k && _ = true -> _ =>
      let H := fresh in let K := fresh in intros H; apply andb_prop in H as [K H];
      apply negb_true_iff in K; subst k; revert H
  end.

Ltac stp :=
  rewrite nlc_cons, exec_cons;
  cbn [step rd wr flags src load word_at m_a m_b m_m w0 w1 w2 w3 cf zf rdx rax rcx r8 r9 r10 r11 r12 r13 r14 r15];
  abstr; nlc.

Ltac solve_for x e E := assert (x = e) by lia; clear E; subst x.
Ltac elim_all := repeat match goal with
  | E : ?y + B * bit ?k = 0 + 0 + bit ?d |- _ => is_var y; solve_for y (bit d - B * bit k) E
  | E : ?l + B * ?h = ?u * ?v |- _ => is_var l; solve_for l (u * v - B * h) E
  | E : ?y + B * bit ?k = ?x + ?z + bit ?d |- _ => is_var x; solve_for x (y + B * bit k - z - bit d) E
  | E : ?y + B * bit ?k = ?x + ?z + bit ?d |- _ => is_var y; solve_for y (x + z + bit d - B * bit k) E
  end.

Definition lowV (s : cpu) : Z := r8 s + B * r9 s + B^2 * r10 s + B^3 * r11 s + B^4 * r12 s.
Definition words_lo (s : cpu) : Prop :=
  word (r8 s) /\ word (r9 s) /\ word (r10 s) /\ word (r11 s) /\ word (r12 s).

Lemma mul_row0_spec m s : wf (m_a m) -> wf (m_b m) -> no_lost_carry m mul_row0 s = true ->
  let t := exec m mul_row0 s in
  words_lo t /\ r13 t = w0 (m_b m) /\ r14 t = w1 (m_b m) /\ r15 t = w2 (m_b m) /\
  lowV t = w0 (m_a m) * val (m_b m).
Proof.
  destruct m as [[a0 a1 a2 a3] [b0 b1 b2 b3] p], s as [ax cx dx x8 x9 x10 x11 x12 x13 x14 x15 c z]. cbn [m_a m_b]. intros (?&?&?&?) (?&?&?&?).
  cbn [w0 w1 w2 w3] in *. unfold mul_row0. cbv zeta.
  match goal with |- no_lost_carry ?m ?c ?s = true -> ?G =>
    let G' := eval pattern (exec m c s) in G in change (no_lost_carry m c s = true -> G') end.
  repeat stp. intros _. cbn [exec]. unfold words_lo, lowV, val.
  cbn [cf zf rdx rax rcx r8 r9 r10 r11 r12 r13 r14 r15 w0 w1 w2 w3].
  split; [auto 10|]. repeat (split; [reflexivity|]).
  repeat match goal with H : word _ |- _ => clear H end. elim_all. cbn [bit]. ring.
Qed.

Definition V8 (s : cpu) : Z :=
  r8 s + B * r9 s + B^2 * r10 s + B^3 * r11 s + B^4 * r12 s + B^5 * r13 s + B^6 * r14 s + B^7 * r15 s.
Definition words8 (s : cpu) : Prop :=
  word (r8 s) /\ word (r9 s) /\ word (r10 s) /\ word (r11 s) /\
  word (r12 s) /\ word (r13 s) /\ word (r14 s) /\ word (r15 s).
(** The same with r15 left out. *)
Definition V7 (s : cpu) : Z :=
  r8 s + B * r9 s + B^2 * r10 s + B^3 * r11 s + B^4 * r12 s + B^5 * r13 s + B^6 * r14 s.
Definition words7 (s : cpu) : Prop :=
  word (r8 s) /\ word (r9 s) /\ word (r10 s) /\ word (r11 s) /\
  word (r12 s) /\ word (r13 s) /\ word (r14 s).

Ltac start :=
  cbv zeta;
  match goal with |- no_lost_carry ?m ?c ?s = true -> ?G =>
    let G' := eval pattern (exec m c s) in G in change (no_lost_carry m c s = true -> G') end.
Ltac simpl_regs := cbn [cf zf rdx rax rcx r8 r9 r10 r11 r12 r13 r14 r15 w0 w1 w2 w3 m_a m_b m_m] in *.
Ltac drop_words := repeat match goal with H : word _ |- _ => clear H end.

Lemma mul_row1_spec m s : wf (m_a m) -> wf (m_b m) -> words_lo s ->
  r13 s = w0 (m_b m) -> r14 s = w1 (m_b m) -> r15 s = w2 (m_b m) ->
  no_lost_carry m mul_row1 s = true ->
  let t := exec m mul_row1 s in
  words7 t /\ r15 t = w2 (m_b m) /\ V7 t = lowV s + B * w1 (m_a m) * val (m_b m).
Proof.
  destruct m as [[a0 a1 a2 a3] [b0 b1 b2 b3] p], s as [ax cx dx x8 x9 x10 x11 x12 x13 x14 x15 c z].
  intros (?&?&?&?) (?&?&?&?) (?&?&?&?&?) E13 E14 E15. simpl_regs. subst x13 x14 x15.
  unfold mul_row1. start. repeat stp. intros _. cbn [exec]. unfold words7, lowV, V7, val. simpl_regs.
  split; [auto 10|]. split; [reflexivity|]. drop_words. elim_all. cbn [bit]. ring.
Qed.

Lemma mul_row2_spec m s : wf (m_a m) -> wf (m_b m) -> words7 s -> r15 s = w2 (m_b m) ->
  no_lost_carry m mul_row2 s = true ->
  let t := exec m mul_row2 s in words8 t /\ V8 t = V7 s + B^2 * w2 (m_a m) * val (m_b m).
Proof.
  destruct m as [[a0 a1 a2 a3] [b0 b1 b2 b3] p], s as [ax cx dx x8 x9 x10 x11 x12 x13 x14 x15 c z].
  intros (?&?&?&?) (?&?&?&?) (?&?&?&?&?&?&?) E15. simpl_regs. subst x15.
  unfold mul_row2. start. repeat stp. intros _. cbn [exec]. unfold words8, V7, V8, val. simpl_regs.
  split; [auto 10|]. drop_words. elim_all. cbn [bit]. ring.
Qed.

Lemma mul_row3_spec m s : wf (m_a m) -> wf (m_b m) -> words8 s ->
  no_lost_carry m mul_row3 s = true ->
  let t := exec m mul_row3 s in
  words8 t /\ V8 t + B^8 * bit (cf t) = V8 s + B^3 * w3 (m_a m) * val (m_b m).
Proof.
  destruct m as [[a0 a1 a2 a3] [b0 b1 b2 b3] p], s as [ax cx dx x8 x9 x10 x11 x12 x13 x14 x15 c z].
  intros (?&?&?&?) (?&?&?&?) (?&?&?&?&?&?&?&?). simpl_regs.
  unfold mul_row3. start. repeat stp. intros _. cbn [exec]. unfold words8, V8, val. simpl_regs.
  split; [auto 10|]. drop_words. elim_all. cbn [bit]. ring.
Qed.

(** One step of the reduction clears a limb.  [q] is the multiplier, [l + B * h] its
    product with the lowest limb of the modulus. *)
Lemma redc_clear p0 x q g l h y k : (p0 * ASM_INV + 1) mod B = 0 ->
  q + B * g = ASM_INV * x -> l + B * h = q * p0 -> word y -> y + B * bit k = x + l + bit false -> y = 0.
Proof.
  intros Hinv Eq El Hy Ey. cbn [bit] in Ey. pose proof Bpos.
  assert (Hi : p0 * ASM_INV + 1 = B * ((p0 * ASM_INV + 1) / B))
    by (pose proof (Z.div_mod (p0 * ASM_INV + 1) B); lia).
  set (u := (p0 * ASM_INV + 1) / B) in *. clearbody u.
  assert (E : y = B * (x * u - g * p0 - h - bit k)).
  { replace y with (x + l - B * bit k) by lia. replace l with (q * p0 - B * h) by lia.
    replace q with (ASM_INV * x - B * g) by lia.
    transitivity (x * (p0 * ASM_INV + 1) - B * g * p0 - B * h - B * bit k); [ring|].
    rewrite Hi. ring. }
  destruct (digit_inj y 0 0 (x * u - g * p0 - h - bit k)) as [E1 _]; auto using word0. lia.
Qed.

Lemma asm_inv_word : word ASM_INV. Proof. unfold word. rewrite Bval. unfold ASM_INV. lia. Qed.

Definition redc_post (m : mem) (s : cpu) (i : Z) (t : cpu) : Prop :=
  words8 t /\ exists q, word q /\ V8 t = V8 s + B^i * q * val (m_m m).

Ltac redc :=
  match goal with |- context [Imm ?z] => lazymatch z with 0 => fail | _ => change z with ASM_INV end end;
  pose proof asm_inv_word; start; generalize asm_inv_word; intros _.

Lemma redc_row0_spec m s : wf (m_m m) -> words8 s -> (w0 (m_m m) * ASM_INV + 1) mod B = 0 ->
  no_lost_carry m redc_row0 s = true ->
  let t := exec m redc_row0 s in r8 t = 0 /\ redc_post m s 0 t.
Proof.
  destruct m as [a b [p0 p1 p2 p3]], s as [ax cx dx x8 x9 x10 x11 x12 x13 x14 x15 c z].
  intros (?&?&?&?) (?&?&?&?&?&?&?&?) Hinv. simpl_regs.
  unfold redc_row0. redc. repeat stp. intros _. cbn [exec]. unfold redc_post, words8, V8, val. simpl_regs.
  match goal with Ei : ?q + B * ?g = ASM_INV * x8, El : ?l + B * ?h = ?q * p0, Ey : ?y + B * bit ?k = x8 + ?l + bit false |- _ =>
    pose proof (redc_clear p0 x8 q g l h y k Hinv Ei El ltac:(assumption) Ey) as Ez; clear Ei; rename q into qq end.
  split; [exact Ez|]. split; [auto 10|]. exists qq. split; [assumption|]. drop_words. clear Ez Hinv.
  elim_all. cbn [bit]. ring.
Qed.

Lemma redc_row1_spec m s : wf (m_m m) -> words8 s -> (w0 (m_m m) * ASM_INV + 1) mod B = 0 ->
  no_lost_carry m redc_row1 s = true ->
  let t := exec m redc_row1 s in r8 t = r8 s /\ r9 t = 0 /\ redc_post m s 1 t.
Proof.
  destruct m as [a b [p0 p1 p2 p3]], s as [ax cx dx x8 x9 x10 x11 x12 x13 x14 x15 c z].
  intros (?&?&?&?) (?&?&?&?&?&?&?&?) Hinv. simpl_regs.
  unfold redc_row1. redc. repeat stp. intros _. cbn [exec]. unfold redc_post, words8, V8, val. simpl_regs.
  match goal with Ei : ?q + B * ?g = ASM_INV * x9, El : ?l + B * ?h = ?q * p0, Ey : ?y + B * bit ?k = x9 + ?l + bit false |- _ =>
    pose proof (redc_clear p0 x9 q g l h y k Hinv Ei El ltac:(assumption) Ey) as Ez; clear Ei; rename q into qq end.
  repeat (split; [reflexivity|]). split; [exact Ez|]. split; [auto 10|]. exists qq. split; [assumption|].
  drop_words. clear Ez Hinv. elim_all. cbn [bit]. ring.
Qed.

Lemma redc_row2_spec m s : wf (m_m m) -> words8 s -> (w0 (m_m m) * ASM_INV + 1) mod B = 0 ->
  no_lost_carry m redc_row2 s = true ->
  let t := exec m redc_row2 s in r8 t = r8 s /\ r9 t = r9 s /\ r10 t = 0 /\ redc_post m s 2 t.
Proof.
  destruct m as [a b [p0 p1 p2 p3]], s as [ax cx dx x8 x9 x10 x11 x12 x13 x14 x15 c z].
  intros (?&?&?&?) (?&?&?&?&?&?&?&?) Hinv. simpl_regs.
  unfold redc_row2. redc. repeat stp. intros _. cbn [exec]. unfold redc_post, words8, V8, val. simpl_regs.
  match goal with Ei : ?q + B * ?g = ASM_INV * x10, El : ?l + B * ?h = ?q * p0, Ey : ?y + B * bit ?k = x10 + ?l + bit false |- _ =>
    pose proof (redc_clear p0 x10 q g l h y k Hinv Ei El ltac:(assumption) Ey) as Ez; clear Ei; rename q into qq end.
  repeat (split; [reflexivity|]). split; [exact Ez|]. split; [auto 10|]. exists qq. split; [assumption|].
  drop_words. clear Ez Hinv. elim_all. cbn [bit]. ring.
Qed.

Lemma redc_row3_spec m s : wf (m_m m) -> words8 s -> (w0 (m_m m) * ASM_INV + 1) mod B = 0 ->
  no_lost_carry m redc_row3 s = true ->
  let t := exec m redc_row3 s in r8 t = r8 s /\ r9 t = r9 s /\ r10 t = r10 s /\ r11 t = 0 /\ words8 t /\ exists q, word q /\ V8 t + B^8 * bit (cf t) = V8 s + B^3 * q * val (m_m m).
Proof.
  destruct m as [a b [p0 p1 p2 p3]], s as [ax cx dx x8 x9 x10 x11 x12 x13 x14 x15 c z].
  intros (?&?&?&?) (?&?&?&?&?&?&?&?) Hinv. simpl_regs.
  unfold redc_row3. redc. repeat stp. intros _. cbn [exec]. unfold redc_post, words8, V8, val. simpl_regs.
  match goal with Ei : ?q + B * ?g = ASM_INV * x11, El : ?l + B * ?h = ?q * p0, Ey : ?y + B * bit ?k = x11 + ?l + bit false |- _ =>
    pose proof (redc_clear p0 x11 q g l h y k Hinv Ei El ltac:(assumption) Ey) as Ez; clear Ei; rename q into qq end.
  repeat (split; [reflexivity|]). split; [exact Ez|]. split; [auto 10|]. exists qq. split; [assumption|].
  drop_words. clear Ez Hinv. elim_all. cbn [bit]. ring.
Qed.

Local Opaque exec no_lost_carry Z.mul Z.add Z.pow.

(** The whole reduction. *)
Definition redc_all : list instr := redc_row0 ++ redc_row1 ++ redc_row2 ++ redc_row3.

Lemma redc_spec m s : mod_ok (m_m m) ASM_INV -> words8 s -> V8 s < val (m_m m) * B^4 ->
  no_lost_carry m redc_all s = true ->
  let t := exec m redc_all s in
  let r := L4 (r12 t) (r13 t) (r14 t) (r15 t) in
  wf r /\ val r < 2 * val (m_m m) /\ exists M, val r * B^4 = V8 s + M * val (m_m m).
Proof.
  intros Hm Ws Hlt. pose proof (mo_wf _ _ Hm) as Wm. pose proof (mo_inv _ _ Hm) as Hinv.
  pose proof (mo_half _ _ Hm) as Hh. pose proof (mo_one _ _ Hm) as Ho.
  unfold redc_all. rewrite !nlc_app, !exec_app. intros H.
  apply andb_prop in H as [H0 H]. apply andb_prop in H as [H1 H]. apply andb_prop in H as [H2 H3].
  destruct (redc_row0_spec m s Wm Ws Hinv H0) as (Z0 & W0 & q0 & Q0 & E0).
  set (s0 := exec m redc_row0 s) in *. clearbody s0.
  destruct (redc_row1_spec m s0 Wm W0 Hinv H1) as (K0 & Z1 & W1 & q1 & Q1 & E1).
  set (s1 := exec m redc_row1 s0) in *. clearbody s1.
  destruct (redc_row2_spec m s1 Wm W1 Hinv H2) as (K1 & K1' & Z2 & W2 & q2 & Q2 & E2).
  set (s2 := exec m redc_row2 s1) in *. clearbody s2.
  destruct (redc_row3_spec m s2 Wm W2 Hinv H3) as (K2 & K2' & K2'' & Z3 & W3 & q3 & Q3 & E3).
  set (t := exec m redc_row3 s2) in *. clearbody t.
  cbv zeta. set (r := L4 (r12 t) (r13 t) (r14 t) (r15 t)).
  destruct W3 as (_ & _ & _ & _ & R12 & R13 & R14 & R15).
  assert (Wr : wf r) by (unfold wf, r; cbn [w0 w1 w2 w3]; auto).
  set (M := q0 + B * q1 + B^2 * q2 + B^3 * q3).
  assert (EV : V8 t = val r * B^4).
  { unfold V8, val, r. cbn [w0 w1 w2 w3]. rewrite K2, K1, K0, Z0, K2', K1', Z1, K2'', Z2, Z3. ring. }
  assert (E : (val r + B^4 * bit (cf t)) * B^4 = V8 s + M * val (m_m m)).
  { transitivity (V8 t + B^8 * bit (cf t)); [rewrite EV; ring|]. rewrite E3, E2, E1, E0. unfold M. ring. }
  assert (HM : 0 <= M < B^4).
  { unfold M, word in *. clear - Q0 Q1 Q2 Q3. rewrite Bval in *. lia. }
  pose proof (val_range r Wr) as Rr. pose proof (val_range _ Wm) as Rm.
  assert (HV : val r + B^4 * bit (cf t) < 2 * val (m_m m)).
  { assert (M * val (m_m m) < B^4 * val (m_m m)) by (apply Z.mul_lt_mono_pos_r; lia).
    apply (Z.mul_lt_mono_pos_r (B^4)); [rewrite Bval; lia|]. rewrite E. lia. }
  assert (C : cf t = false).
  { destruct (cf t); [|reflexivity]. cbn [bit] in HV. lia. }
  rewrite C in *. cbn [bit] in *. rewrite Z.mul_0_r, Z.add_0_r in *.
  split; [exact Wr|]. split; [exact HV|]. exists M. exact E.
Qed.

Local Transparent exec no_lost_carry Z.mul Z.add Z.pow.

(** The conditional subtraction. *)
Lemma final_sub_fun m s :
  let t := exec m final_sub s in
  L4 (r8 t) (r9 t) (r10 t) (r11 t) =
  let r := L4 (r12 s) (r13 s) (r14 s) (r15 s) in
  let d := subb4 r (m_m m) in sel4 (snd d) r (fst d).
Proof. destruct m as [a b [p0 p1 p2 p3]], s. reflexivity. Qed.

Lemma final_sub_spec m s : wf (m_m m) ->
  let r := L4 (r12 s) (r13 s) (r14 s) (r15 s) in wf r -> val r < 2 * val (m_m m) ->
  let t := exec m final_sub s in let o := L4 (r8 t) (r9 t) (r10 t) (r11 t) in
  wf o /\ val o < val (m_m m) /\ exists k, val o = val r + k * val (m_m m).
Proof.
  intros Wm r Wr Hr. cbv zeta. rewrite final_sub_fun. cbv zeta. fold r. rewrite sel4_eq.
  destruct (subb4_val r (m_m m) Wr Wm) as (W & -> & E).
  destruct (Z.ltb_spec (val r) (val (m_m m))).
  - split; [exact Wr|]. split; [assumption|]. exists 0. ring.
  - split; [exact W|]. rewrite E. split; [lia|]. exists (-1). ring.
Qed.

Lemma second_sub_keeps m s :
  let t := exec m second_sub s in
  L4 (r8 t) (r9 t) (r10 t) (r11 t) = L4 (r8 s) (r9 s) (r10 s) (r11 s).
Proof. destruct m as [a b [p0 p1 p2 p3]], s. reflexivity. Qed.

(** ** The product *)
Definition mul_rows : list instr := mul_row0 ++ mul_row1 ++ mul_row2 ++ mul_row3.

Lemma V8_nonneg s : words8 s -> 0 <= V8 s < B^8.
Proof. intros (?&?&?&?&?&?&?&?). unfold V8, word in *. rewrite Bval in *. lia. Qed.

Lemma mul_rows_spec m s : wf (m_a m) -> wf (m_b m) -> no_lost_carry m mul_rows s = true ->
  let t := exec m mul_rows s in words8 t /\ V8 t = val (m_a m) * val (m_b m).
Proof.
  intros Wa Wb. unfold mul_rows. rewrite !nlc_app, !exec_app. intros H.
  apply andb_prop in H as [H0 H]. apply andb_prop in H as [H1 H]. apply andb_prop in H as [H2 H3].
  destruct (mul_row0_spec m s Wa Wb H0) as (W0 & X13 & X14 & X15 & E0).
  set (s0 := exec m mul_row0 s) in *. clearbody s0.
  destruct (mul_row1_spec m s0 Wa Wb W0 X13 X14 X15 H1) as (W1 & Y15 & E1).
  set (s1 := exec m mul_row1 s0) in *. clearbody s1.
  destruct (mul_row2_spec m s1 Wa Wb W1 Y15 H2) as (W2 & E2).
  set (s2 := exec m mul_row2 s1) in *. clearbody s2.
  destruct (mul_row3_spec m s2 Wa Wb W2 H3) as (W3 & E3).
  set (t := exec m mul_row3 s2) in *. clearbody t. cbv zeta. split; [exact W3|].
  assert (E : V8 t + B^8 * bit (cf t) = val (m_a m) * val (m_b m)).
  { rewrite E3, E2, E1, E0. unfold val at 5. ring. }
  pose proof (V8_nonneg t W3). pose proof (val_range _ Wa). pose proof (val_range _ Wb).
  assert (val (m_a m) * val (m_b m) < B^4 * B^4) by (apply Z.mul_lt_mono_nonneg; lia).
  destruct (cf t); cbn [bit] in E; lia.
Qed.

Lemma asm_mul_spec s a b p : mod_ok p ASM_INV -> wf a -> wf b -> val a * val b < val p * B^4 ->
  no_lost_carry (MemOf a b p) mul_body s = true ->
  wf (asm_mul s a b p) /\ val (asm_mul s a b p) < val p /\
  exists M, val (asm_mul s a b p) * B^4 = val a * val b + M * val p.
Proof.
  intros Hm Wa Wb Hlt H. set (m := MemOf a b p) in *.
  assert (EB : mul_body = mul_rows ++ redc_all) by reflexivity.
  rewrite EB, nlc_app in H. apply andb_prop in H as [H1 H2].
  destruct (mul_rows_spec m s Wa Wb H1) as [W1 E1].
  destruct (redc_spec m _ Hm W1 ltac:(rewrite E1; exact Hlt) H2) as (W2 & L2 & M & E2).
  rewrite <- exec_app, <- EB in W2, L2, E2.
  destruct (final_sub_spec m _ (mo_wf _ _ Hm) W2 L2) as (W3 & L3 & k & E3).
  assert (EO : asm_mul s a b p =
    (let t := exec m final_sub (exec m mul_body s) in L4 (r8 t) (r9 t) (r10 t) (r11 t))).
  { unfold asm_mul, mul_code. rewrite !exec_app. fold m. apply second_sub_keeps. }
  rewrite EO. cbv zeta. split; [exact W3|]. split; [exact L3|].
  exists (M + k * B^4). rewrite E3. cbn [m_a m_b m_m m] in *.
  rewrite Z.mul_add_distr_r, E2, E1. ring.
Qed.
