(** Proofs about AsmModel.v: addition, subtraction, doubling and negation. *)
From Coq Require Import ZArith List Bool Lia.
From Verif Require Import LimbModel LimbProofs AsmModel AsmSpec.
Import ListNotations.
Local Open Scope Z_scope.

Lemma bit_range c : 0 <= bit c <= 1. Proof. destruct c; cbn; lia. Qed.

Lemma sum64_spec x y c : word x -> word y ->
  word (sum64 x y c) /\ sum64 x y c + B * bit (carry64 x y c) = x + y + bit c.
Proof.
  intros Hx Hy. unfold sum64, carry64. pose proof (bit_range c). rewrite w64_eq. pose proof Bpos.
  split; [apply Z.mod_pos_bound; lia|]. unfold word in *.
  destruct (Z.leb_spec B (x + y + bit c)); unfold bit at 2.
  - rewrite <- (Z.mod_unique (x + y + bit c) B 1 (x + y + bit c - B)); lia.
  - rewrite Z.mod_small; lia.
Qed.

Lemma diff64_spec x y c : word x -> word y ->
  word (diff64 x y c) /\ diff64 x y c - B * bit (borrow64 x y c) = x - y - bit c.
Proof.
  intros Hx Hy. unfold diff64, borrow64. pose proof (bit_range c). rewrite w64_eq. pose proof Bpos.
  split; [apply Z.mod_pos_bound; lia|]. unfold word in *.
  destruct (Z.ltb_spec (x - y - bit c) 0); unfold bit at 2.
  - rewrite <- (Z.mod_unique (x - y - bit c) B (-1) (x - y - bit c + B)); lia.
  - rewrite Z.mod_small; lia.
Qed.

(** The two four-instruction chains. *)
Definition addc4 (a b : l4) : l4 * bool :=
  let r0 := sum64 (w0 a) (w0 b) false in let c0 := carry64 (w0 a) (w0 b) false in
  let r1 := sum64 (w1 a) (w1 b) c0 in let c1 := carry64 (w1 a) (w1 b) c0 in
  let r2 := sum64 (w2 a) (w2 b) c1 in let c2 := carry64 (w2 a) (w2 b) c1 in
  let r3 := sum64 (w3 a) (w3 b) c2 in let c3 := carry64 (w3 a) (w3 b) c2 in
  (L4 r0 r1 r2 r3, c3).

Definition subb4 (a b : l4) : l4 * bool :=
  let r0 := diff64 (w0 a) (w0 b) false in let c0 := borrow64 (w0 a) (w0 b) false in
  let r1 := diff64 (w1 a) (w1 b) c0 in let c1 := borrow64 (w1 a) (w1 b) c0 in
  let r2 := diff64 (w2 a) (w2 b) c1 in let c2 := borrow64 (w2 a) (w2 b) c1 in
  let r3 := diff64 (w3 a) (w3 b) c2 in let c3 := borrow64 (w3 a) (w3 b) c2 in
  (L4 r0 r1 r2 r3, c3).


Lemma lin4 r0 r1 r2 r3 a0 a1 a2 a3 b0 b1 b2 b3 c0 c1 c2 c3 :
  r0 + B * c0 = a0 + b0 -> r1 + B * c1 = a1 + b1 + c0 -> r2 + B * c2 = a2 + b2 + c1 ->
  r3 + B * c3 = a3 + b3 + c2 ->
  r0 + B * r1 + B^2 * r2 + B^3 * r3 + B^4 * c3 =
  (a0 + B * a1 + B^2 * a2 + B^3 * a3) + (b0 + B * b1 + B^2 * b2 + B^3 * b3).
Proof.
  intros E0 E1 E2 E3. replace a0 with (r0 + B * c0 - b0) by lia.
  replace a1 with (r1 + B * c1 - b1 - c0) by lia. replace a2 with (r2 + B * c2 - b2 - c1) by lia.
  replace a3 with (r3 + B * c3 - b3 - c2) by lia. ring.
Qed.

Lemma addc4_spec a b : wf a -> wf b ->
  wf (fst (addc4 a b)) /\ val (fst (addc4 a b)) + B^4 * bit (snd (addc4 a b)) = val a + val b.
Proof.
  intros (A0 & A1 & A2 & A3) (B0 & B1 & B2 & B3). unfold addc4. cbn [fst snd].
  destruct (sum64_spec _ _ false A0 B0) as [W0 E0].
  set (c0 := carry64 (w0 a) (w0 b) false) in *.
  destruct (sum64_spec _ _ c0 A1 B1) as [W1 E1].
  set (c1 := carry64 (w1 a) (w1 b) c0) in *.
  destruct (sum64_spec _ _ c1 A2 B2) as [W2 E2].
  set (c2 := carry64 (w2 a) (w2 b) c1) in *.
  destruct (sum64_spec _ _ c2 A3 B3) as [W3 E3].
  split; [unfold wf; cbn [w0 w1 w2 w3]; auto|].
  unfold val; cbn [w0 w1 w2 w3]. change (bit false) with 0 in E0. rewrite Z.add_0_r in E0.
  exact (lin4 _ _ _ _ _ _ _ _ _ _ _ _ _ _ _ _ E0 E1 E2 E3).
Qed.

Lemma subb4_spec a b : wf a -> wf b ->
  wf (fst (subb4 a b)) /\ val (fst (subb4 a b)) - B^4 * bit (snd (subb4 a b)) = val a - val b.
Proof.
  intros (A0 & A1 & A2 & A3) (B0 & B1 & B2 & B3). unfold subb4. cbn [fst snd].
  destruct (diff64_spec _ _ false A0 B0) as [W0 E0].
  set (c0 := borrow64 (w0 a) (w0 b) false) in *.
  destruct (diff64_spec _ _ c0 A1 B1) as [W1 E1].
  set (c1 := borrow64 (w1 a) (w1 b) c0) in *.
  destruct (diff64_spec _ _ c1 A2 B2) as [W2 E2].
  set (c2 := borrow64 (w2 a) (w2 b) c1) in *.
  destruct (diff64_spec _ _ c2 A3 B3) as [W3 E3].
  set (c3 := borrow64 (w3 a) (w3 b) c2) in *.
  split; [unfold wf; cbn [w0 w1 w2 w3]; auto|].
  unfold val; cbn [w0 w1 w2 w3]. change (bit false) with 0 in E0.
  pose proof (lin4 (diff64 (w0 a) (w0 b) false) (diff64 (w1 a) (w1 b) c0) (diff64 (w2 a) (w2 b) c1)
    (diff64 (w3 a) (w3 b) c2) (w0 a) (w1 a) (w2 a) (w3 a) (- w0 b) (- w1 b) (- w2 b) (- w3 b)
    (- bit c0) (- bit c1) (- bit c2) (- bit c3)
    ltac:(lia) ltac:(lia) ltac:(lia) ltac:(lia)) as L.
  clear - L. nia.
Qed.

Lemma bit_inj c n : bit c = n -> c = (n =? 1).
Proof. intros <-. destruct c; reflexivity. Qed.

(** The borrow of a four-limb subtraction. *)
Lemma subb4_val a b : wf a -> wf b ->
  wf (fst (subb4 a b)) /\ snd (subb4 a b) = (val a <? val b) /\
  val (fst (subb4 a b)) = if val a <? val b then val a - val b + B^4 else val a - val b.
Proof.
  intros Ha Hb. destruct (subb4_spec a b Ha Hb) as [W E]. split; [exact W|].
  pose proof (val_range _ W) as R. pose proof (val_range _ Ha). pose proof (val_range _ Hb).
  destruct (snd (subb4 a b)); cbn [bit] in E; destruct (Z.ltb_spec (val a) (val b)); split; try reflexivity; lia.
Qed.

Lemma addc4_val a b : wf a -> wf b ->
  wf (fst (addc4 a b)) /\ val (fst (addc4 a b)) = (val a + val b) mod B^4.
Proof.
  intros Ha Hb. destruct (addc4_spec a b Ha Hb) as [W E]. split; [exact W|].
  pose proof (val_range _ W) as R. apply (Z.mod_unique _ _ (bit (snd (addc4 a b)))); lia.
Qed.

(** Choice between two arrays of words, word by word. *)
Definition sel4 (c : bool) (x y : l4) : l4 :=
  L4 (if c then w0 x else w0 y) (if c then w1 x else w1 y)
     (if c then w2 x else w2 y) (if c then w3 x else w3 y).

Lemma sel4_eq c x y : sel4 c x y = if c then x else y.
Proof. destruct c; unfold sel4; apply val_eta. Qed.

(** Functional reading of the blocks. *)
Lemma asm_add_fun s a b p :
  asm_add s a b p = let t := fst (addc4 a b) in let d := subb4 t p in sel4 (snd d) t (fst d).
Proof. destruct s, a, b, p. reflexivity. Qed.

Lemma asm_double_fun s a p :
  asm_double s a p = let t := fst (addc4 a a) in let d := subb4 t p in sel4 (snd d) t (fst d).
Proof. destruct s, a, p. reflexivity. Qed.

Lemma asm_sub_fun s a b p :
  asm_sub s a b p = let d := subb4 a b in fst (addc4 (sel4 (snd d) p (L4 0 0 0 0)) (fst d)).
Proof.
  destruct s as [ax cx dx x8 x9 x10 x11 x12 x13 x14 x15 c z].
  destruct a as [a0 a1 a2 a3], b as [b0 b1 b2 b3], p as [p0 p1 p2 p3].
  assert (E : asm_sub (Cpu ax cx dx x8 x9 x10 x11 x12 x13 x14 x15 c z) (L4 a0 a1 a2 a3) (L4 b0 b1 b2 b3) (L4 p0 p1 p2 p3) =
    let d := subb4 (L4 a0 a1 a2 a3) (L4 b0 b1 b2 b3) in
    fst (addc4 (sel4 (snd d) (L4 p0 p1 p2 p3)
      (L4 (Z.lxor x12 x12) (Z.lxor x13 x13) (Z.lxor x14 x14) (Z.lxor x15 x15))) (fst d)))
    by reflexivity.
  rewrite E, !Z.lxor_nilpotent. reflexivity.
Qed.

Definition mask4 (x : l4) (m : Z) : l4 :=
  L4 (Z.land (w0 x) m) (Z.land (w1 x) m) (Z.land (w2 x) m) (Z.land (w3 x) m).

Lemma asm_neg_fun s a p :
  asm_neg s a p =
  let o := Z.lor (Z.lor (w0 a) (w1 a)) (Z.lor (w2 a) (w3 a)) in
  mask4 (fst (subb4 p a)) (if diff64 o 0 false =? 0 then o else 0xffffffffffffffff).
Proof. destruct s, a, p. reflexivity. Qed.

Lemma asm_add_val s a b p : wf a -> wf b -> wf p ->
  wf (asm_add s a b p) /\
  val (asm_add s a b p) = let t := (val a + val b) mod B^4 in if t <? val p then t else t - val p.
Proof.
  intros Ha Hb Hp. rewrite asm_add_fun. cbv zeta. rewrite sel4_eq.
  destruct (addc4_val a b Ha Hb) as [W E]. destruct (subb4_val _ p W Hp) as (W2 & -> & E2).
  rewrite <- E. destruct (val (fst (addc4 a b)) <? val p); auto.
Qed.

Lemma asm_double_val s a p : wf a -> wf p ->
  wf (asm_double s a p) /\
  val (asm_double s a p) = let t := (2 * val a) mod B^4 in if t <? val p then t else t - val p.
Proof.
  intros Ha Hp. rewrite asm_double_fun. cbv zeta. rewrite sel4_eq.
  destruct (addc4_val a a Ha Ha) as [W E]. destruct (subb4_val _ p W Hp) as (W2 & -> & E2).
  replace (2 * val a) with (val a + val a) by ring.
  rewrite <- E. destruct (val (fst (addc4 a a)) <? val p); auto.
Qed.

Lemma wf0 : wf (L4 0 0 0 0). Proof. unfold wf; cbn [w0 w1 w2 w3]; auto using word0. Qed.
Lemma val0 : val (L4 0 0 0 0) = 0. Proof. reflexivity. Qed.

Lemma asm_sub_val s a b p : wf a -> wf b -> wf p ->
  wf (asm_sub s a b p) /\
  val (asm_sub s a b p) = if val a <? val b then (val a - val b + val p) mod B^4 else val a - val b.
Proof.
  intros Ha Hb Hp. rewrite asm_sub_fun. cbv zeta. rewrite sel4_eq.
  destruct (subb4_val a b Ha Hb) as (W & -> & E).
  pose proof (val_range a Ha). pose proof (val_range b Hb).
  destruct (Z.ltb_spec (val a) (val b)).
  - destruct (addc4_val p _ Hp W) as [W2 ->]. split; [exact W2|]. rewrite E.
    replace (val p + (val a - val b + B^4)) with (val a - val b + val p + 1 * B^4) by ring.
    apply Z.mod_add. pose proof Bpos. nia.
  - destruct (addc4_val _ _ wf0 W) as [W2 ->]. split; [exact W2|]. rewrite E, val0. apply Z.mod_small. lia.
Qed.

Lemma lor4_zero a : wf a ->
  (Z.lor (Z.lor (w0 a) (w1 a)) (Z.lor (w2 a) (w3 a)) = 0 <-> val a = 0).
Proof.
  intros (A0 & A1 & A2 & A3). split.
  - intros E. apply Z.lor_eq_0_iff in E as (E & E'). apply Z.lor_eq_0_iff in E as (E0 & E1).
    apply Z.lor_eq_0_iff in E' as (E2 & E3). unfold val. rewrite E0, E1, E2, E3. reflexivity.
  - intros Hz. unfold val, word in *. rewrite Bval in *.
    assert (w0 a = 0 /\ w1 a = 0 /\ w2 a = 0 /\ w3 a = 0) as (-> & -> & -> & ->) by lia. reflexivity.
Qed.

Lemma lor_word2 x y : word x -> word y -> word (Z.lor x y).
Proof.
  unfold word. rewrite Bval. change 18446744073709551616 with (2 ^ 64). intros Hx Hy.
  assert (P : 0 <= Z.lor x y) by (apply Z.lor_nonneg; lia). split; [exact P|].
  destruct (Z.eq_dec (Z.lor x y) 0) as [->|N]; [reflexivity|].
  apply Z.log2_lt_pow2; [lia|]. rewrite Z.log2_lor by lia.
  assert (L : forall z, 0 <= z < 2 ^ 64 -> Z.log2 z < 64).
  { intros z Hz. destruct (Z.eq_dec z 0) as [->|]; [reflexivity|]. apply Z.log2_lt_pow2; lia. }
  apply Z.max_lub_lt; apply L; assumption.
Qed.

Lemma mask4_0 x : mask4 x 0 = L4 0 0 0 0.
Proof. unfold mask4. rewrite !Z.land_0_r. reflexivity. Qed.

Lemma mask4_ones x : wf x -> mask4 x 0xffffffffffffffff = x.
Proof.
  intros (A0 & A1 & A2 & A3). unfold mask4. change 0xffffffffffffffff with (B - 1).
  rewrite !land_ones_word by assumption. apply val_eta.
Qed.

Lemma asm_neg_val s a p : wf a -> wf p ->
  wf (asm_neg s a p) /\
  val (asm_neg s a p) = if val a =? 0 then 0 else (val p - val a) mod B^4.
Proof.
  intros Ha Hp. rewrite asm_neg_fun. cbv zeta.
  pose proof (lor4_zero a Ha) as L.
  assert (Wo : word (Z.lor (Z.lor (w0 a) (w1 a)) (Z.lor (w2 a) (w3 a))))
    by (destruct Ha as (?&?&?&?); auto using lor_word2).
  set (o := Z.lor _ _) in *. clearbody o.
  assert (D : diff64 o 0 false = o).
  { unfold diff64. cbn [bit]. rewrite w64_eq. replace (o - 0 - 0) with o by ring. apply Z.mod_small. exact Wo. }
  rewrite D. destruct (Z.eqb_spec o 0) as [->|N].
  - rewrite mask4_0. split; [apply wf0|]. destruct (Z.eqb_spec (val a) 0); [apply val0|tauto].
  - destruct (subb4_val p a Hp Ha) as (W & _ & E). rewrite mask4_ones by exact W. split; [exact W|].
    destruct (Z.eqb_spec (val a) 0); [tauto|]. rewrite E.
    pose proof (val_range a Ha). pose proof (val_range p Hp).
    destruct (Z.ltb_spec (val p) (val a)).
    + apply (Z.mod_unique _ _ (-1)); lia.
    + symmetry. apply Z.mod_small. lia.
Qed.

(** The same closed forms for the portable backend, for every input. *)
Lemma add_val a b p : wf a -> wf b -> wf p ->
  wf (add a b p) /\
  val (add a b p) = let t := (val a + val b) mod B^4 in if t <? val p then t else t - val p.
Proof.
  intros Ha Hb Hp.
  assert (E : add a b p = cond_sub (let (r0, c) := halves (w0 a + w0 b) in
     let (r1, c) := halves (w1 a + w1 b + c) in
     let (r2, c) := halves (w2 a + w2 b + c) in
     L4 r0 r1 r2 (wadd (wadd (w3 a) (w3 b)) c)) p).
  { unfold add. destruct (halves _) as [r0 c0]. destruct (halves _) as [r1 c1].
    destruct (halves _) as [r2 c2]. reflexivity. }
  rewrite E. clear E.
  apply (add_chain (fun r => wf (cond_sub r p) /\ val (cond_sub r p) =
    let t := (val a + val b) mod B^4 in if t <? val p then t else t - val p));
    [wfs; assumption..|].
  intros r k Hr Hk E. rewrite !val_eta in E. pose proof (val_range r Hr) as Rr.
  cbv zeta. rewrite <- (Z.mod_unique (val a + val b) (B^4) k (val r)) by lia.
  apply cond_sub_spec; assumption.
Qed.

Lemma double_val a p : wf a -> wf p ->
  wf (double a p) /\
  val (double a p) = let t := (2 * val a) mod B^4 in if t <? val p then t else t - val p.
Proof.
  intros Ha Hp. unfold double. wfs.
  match goal with |- wf (cond_sub ?l p) /\ _ => assert (Hl : wf l) end.
  { unfold wf; cbn [w0 w1 w2 w3]. auto using lor_word, shl1_word. }
  match goal with |- wf (cond_sub ?l p) /\ _ => pose proof (cond_sub_spec l p Hl ltac:(unfold wf; auto)) as S;
    assert (E : val l = 2 * val a - B^4 * (w3 a / 2^63)) end.
  { unfold val; cbn [w0 w1 w2 w3]. rewrite !lor_shl1 by assumption. rewrite !shl1_mod. rewrite !dbl_word by assumption.
    ring. }
  cbv zeta. match type of S with wf (cond_sub ?l p) /\ _ =>
    rewrite <- (Z.mod_unique (2 * val a) (B^4) (w3 a / 2^63) (val l)); [exact S| |lia];
    left; exact (val_range l Hl) end.
Qed.

Lemma sub_val a b p : wf a -> wf b -> wf p ->
  wf (sub a b p) /\
  val (sub a b p) = if val a <? val b then (val a - val b + val p) mod B^4 else val a - val b.
Proof.
  intros Ha Hb Hp. unfold sub. pose proof (sub4_spec a b Ha Hb) as S.
  destruct (sub4 a b) as [d brw]. destruct S as (Hd & S).
  pose proof (val_range a Ha). pose proof (val_range b Hb).
  destruct S as [(C & -> & E)|(C & -> & E)].
  - pose proof Hp as (P0 & P1 & P2 & P3).
    destruct (add_masked_gen d p (B - 1)) as (Hw & k & Hk & E2); rewrite ?land_ones_word by assumption; auto.
    split; [exact Hw|]. rewrite !land_ones_word in E2 by assumption. rewrite val_eta in E2.
    pose proof (val_range _ Hw). destruct (Z.ltb_spec (val a) (val b)); [|lia].
    apply (Z.mod_unique _ _ (k - 1)); lia.
  - destruct (add_masked_0 d p) as [Hw ->]; auto. split; [exact Hw|]. destruct (Z.ltb_spec (val a) (val b)); lia.
Qed.

Lemma neg_val a p : wf a -> wf p ->
  wf (neg a p) /\ val (neg a p) = if val a =? 0 then 0 else (val p - val a) mod B^4.
Proof.
  intros Ha Hp. unfold neg. pose proof (lor4_zero a Ha) as L.
  replace (Z.lor (Z.lor (Z.lor (w0 a) (w1 a)) (w2 a)) (w3 a))
    with (Z.lor (Z.lor (w0 a) (w1 a)) (Z.lor (w2 a) (w3 a))) by apply Z.lor_assoc.
  destruct (Z.eqb_spec (Z.lor (Z.lor (w0 a) (w1 a)) (Z.lor (w2 a) (w3 a))) 0) as [E|N].
  - split; [exact Ha|]. destruct (Z.eqb_spec (val a) 0); tauto.
  - destruct (Z.eqb_spec (val a) 0); [tauto|]. clear L N. wfs.
    assert (E0 : w128 (w0 p - w0 a) = w128 (w0 p - (w0 a + shr 0 63)))
      by (rewrite shr63_0, Z.add_0_r; reflexivity).
    rewrite E0.
    destruct (halves_sub (w0 p) (w0 a) 0 0) as (r0 & h0 & k0 & -> & Hr0 & Hh0 & X0); auto.
    destruct (halves_sub (w1 p) (w1 a) k0 h0) as (r1 & h1 & k1 & -> & Hr1 & Hh1 & X1); auto.
    destruct (halves_sub (w2 p) (w2 a) k1 h1) as (r2 & h2 & k2 & -> & Hr2 & Hh2 & X2); auto.
    assert (Hs : shr h2 63 = k2) by (destruct Hh2 as [[-> ->]|[-> ->]]; [apply shr63_0|apply shr63_ones]).
    rewrite Hs. rewrite !wsub_eq, Zminus_mod_idemp_l.
    pose proof (Z.mod_pos_bound (w3 p - w3 a - k2) B Bpos) as R3.
    pose proof (Z.div_mod (w3 p - w3 a - k2) B ltac:(pose proof Bpos; lia)) as X3.
    set (q := (w3 p - w3 a - k2) / B) in *. set (r3 := (w3 p - w3 a - k2) mod B) in *.
    clearbody q r3.
    assert (Wr : wf (L4 r0 r1 r2 r3)) by (unfold wf; cbn [w0 w1 w2 w3]; auto).
    split; [exact Wr|]. apply (Z.mod_unique _ _ q); [left; exact (val_range _ Wr)|].
    unfold val; cbn [w0 w1 w2 w3].
    pose proof (lin4 r0 r1 r2 r3 (w0 p) (w1 p) (w2 p) (w3 p) (- w0 a) (- w1 a) (- w2 a) (- w3 a)
      (- k0) (- k1) (- k2) q ltac:(lia) ltac:(lia) ltac:(lia) ltac:(lia)) as L.
    clear - L. nia.
Qed.

(** Agreement with the portable backend, for all words. *)
Lemma asm_add_eq s a b p : wf a -> wf b -> wf p -> asm_add s a b p = add a b p.
Proof.
  intros Ha Hb Hp. destruct (asm_add_val s a b p Ha Hb Hp) as [W E], (add_val a b p Ha Hb Hp) as [W' E'].
  apply val_inj; auto. rewrite E, E'. reflexivity.
Qed.
Lemma asm_sub_eq s a b p : wf a -> wf b -> wf p -> asm_sub s a b p = sub a b p.
Proof.
  intros Ha Hb Hp. destruct (asm_sub_val s a b p Ha Hb Hp) as [W E], (sub_val a b p Ha Hb Hp) as [W' E'].
  apply val_inj; auto. rewrite E, E'. reflexivity.
Qed.
Lemma asm_double_eq s a p : wf a -> wf p -> asm_double s a p = double a p.
Proof.
  intros Ha Hp. destruct (asm_double_val s a p Ha Hp) as [W E], (double_val a p Ha Hp) as [W' E'].
  apply val_inj; auto. rewrite E, E'. reflexivity.
Qed.
Lemma asm_neg_eq s a p : wf a -> wf p -> asm_neg s a p = neg a p.
Proof.
  intros Ha Hp. destruct (asm_neg_val s a p Ha Hp) as [W E], (neg_val a p Ha Hp) as [W' E'].
  apply val_inj; auto. rewrite E, E'. reflexivity.
Qed.
