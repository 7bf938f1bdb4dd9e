(** Proofs about LimbModel.v: every limb function computes the intended
    integer operation. *)
From Coq Require Import ZArith List Bool Lia Znumtheory.
From Coq Require Import ZifyBool.
From Verif Require Import LimbModel.
Import ListNotations.
Local Open Scope Z_scope.

(** Integer value of limbs, well-formed limbs. *)
Definition val (a : l4) : Z := w0 a + B * w1 a + B^2 * w2 a + B^3 * w3 a.
Definition val8 (a : l8) : Z :=
  v0 a + B * v1 a + B^2 * v2 a + B^3 * v3 a + B^4 * v4 a + B^5 * v5 a + B^6 * v6 a + B^7 * v7 a.
Definition word (x : Z) : Prop := 0 <= x < B.
Definition wf (a : l4) : Prop := word (w0 a) /\ word (w1 a) /\ word (w2 a) /\ word (w3 a).
Definition wf8 (a : l8) : Prop :=
  word (v0 a) /\ word (v1 a) /\ word (v2 a) /\ word (v3 a) /\
  word (v4 a) /\ word (v5 a) /\ word (v6 a) /\ word (v7 a).

Lemma Bval : B = 18446744073709551616. Proof. reflexivity. Qed.
Lemma BBval : BB = B * B. Proof. reflexivity. Qed.
Lemma Bpos : 0 < B. Proof. reflexivity. Qed.

Lemma w64_eq s : w64 s = s mod B.
Proof. unfold w64. change 0xffffffffffffffff with (Z.ones 64). rewrite Z.land_ones by lia. reflexivity. Qed.
Lemma w128_eq s : w128 s = s mod BB.
Proof.
  unfold w128. change 0xffffffffffffffffffffffffffffffff with (Z.ones 128).
  rewrite Z.land_ones by lia. reflexivity.
Qed.
Lemma lo_eq s : lo s = s mod B. Proof. apply w64_eq. Qed.
Lemma hi_eq s : hi s = (s / B) mod B.
Proof. unfold hi. rewrite w64_eq, Z.shiftr_div_pow2 by lia. reflexivity. Qed.
Lemma wadd_eq x y : wadd x y = (x + y) mod B. Proof. apply w64_eq. Qed.
Lemma wsub_eq x y : wsub x y = (x - y) mod B. Proof. apply w64_eq. Qed.
Lemma wmul_eq x y : wmul x y = (x * y) mod B. Proof. apply w64_eq. Qed.
Lemma shl1_mod x : shl1 x = (2 * x) mod B. Proof. apply w64_eq. Qed.
Lemma shr_div x n : 0 <= n -> shr x n = x / 2 ^ n. Proof. intros. apply Z.shiftr_div_pow2. assumption. Qed.
Lemma shr63 x : shr x 63 = x / 2 ^ 63. Proof. apply Z.shiftr_div_pow2. lia. Qed.
Global Opaque B BB.

Lemma lo_range s : word (lo s).
Proof. unfold word. rewrite lo_eq. apply Z.mod_pos_bound, Bpos. Qed.
Lemma hi_range s : word (hi s).
Proof. unfold word. rewrite hi_eq. apply Z.mod_pos_bound, Bpos. Qed.

Lemma lohi s : 0 <= s < B * B -> lo s + B * hi s = s.
Proof.
  intros H. rewrite !lo_eq, !hi_eq. rewrite (Z.mod_small (s / B)).
  - pose proof (Z.div_mod s B). pose proof Bpos. lia.
  - pose proof Bpos. split; [apply Z.div_pos; lia|]. apply Z.div_lt_upper_bound; lia.
Qed.

Lemma halves_spec s : 0 <= s < B * B ->
  exists l h, halves s = (l, h) /\ word l /\ word h /\ l + B * h = s.
Proof. intros H. exists (lo s), (hi s). repeat split; try apply lo_range; try apply hi_range. apply lohi, H. Qed.

(** No u128 overflow in any multiply-accumulate of the source. *)
Lemma mac_no_overflow x y z c : word x -> word y -> word z -> word c ->
  0 <= x + y * z + c < B * B.
Proof.
  unfold word. intros Hx Hy Hz Hc. pose proof Bpos.
  assert (y * z <= (B - 1) * (B - 1)) by (apply Z.mul_le_mono_nonneg; lia).
  assert (0 <= y * z) by (apply Z.mul_nonneg_nonneg; lia).
  lia.
Qed.

Lemma mac_spec x y z c : word x -> word y -> word z -> word c ->
  lo (x + y * z + c) + B * hi (x + y * z + c) = x + y * z + c.
Proof. intros. apply lohi, mac_no_overflow; assumption. Qed.

Lemma word0 : word 0. Proof. unfold word. pose proof Bpos. lia. Qed.

Lemma adc_spec x y c : word x -> word y -> word c ->
  lo (x + y + c) + B * hi (x + y + c) = x + y + c.
Proof.
  intros Hx Hy Hc. apply lohi. unfold word in *. pose proof Bval. lia.
Qed.

(** hi of a borrow computation *)
Lemma sub_word x y : word x -> 0 <= y <= B ->
  let s := w128 (x - y) in
  (x < y /\ lo s = x - y + B /\ hi s = B - 1) \/ (y <= x /\ lo s = x - y /\ hi s = 0).
Proof.
  intros Hx Hy s. unfold word in Hx. pose proof Bval as HB.
  destruct (Z_lt_le_dec x y) as [H|H]; [left|right]; (split; [exact H|]).
  - assert (Hs : s = x - y + BB).
    { unfold s. rewrite w128_eq. symmetry. apply (Z.mod_unique _ _ (-1)); rewrite BBval; [left|]; lia. }
    rewrite !lo_eq, !hi_eq. rewrite Hs, BBval.
    assert (E : x - y + B * B = (x - y + B) + (B - 1) * B) by ring.
    rewrite E, Z.mod_add, Z.div_add by lia.
    destruct (Z.eq_dec (x - y + B) B) as [E1|E1]; [lia|].
    rewrite (Z.mod_small (x - y + B)) by lia. rewrite (Z.div_small (x - y + B)) by lia.
    rewrite Z.add_0_l, Z.mod_small by lia. lia.
  - assert (Hs : s = x - y). { unfold s. rewrite w128_eq. apply Z.mod_small. rewrite BBval. lia. }
    rewrite !lo_eq, !hi_eq. rewrite Hs. rewrite (Z.mod_small (x - y)) by lia.
    rewrite (Z.div_small (x - y)) by lia. rewrite Z.mod_small by lia. lia.
Qed.

Lemma shr63_ones : shr (B - 1) 63 = 1. Proof. rewrite Bval. reflexivity. Qed.
Lemma shr63_0 : shr 0 63 = 0. Proof. reflexivity. Qed.

Lemma land_ones_word x : word x -> Z.land x (B - 1) = x.
Proof.
  intros H. unfold word in H. assert (E : B - 1 = Z.ones 64) by (rewrite Bval; reflexivity).
  rewrite E, Z.land_ones by lia. rewrite Bval in H. apply Z.mod_small. exact H.
Qed.

Ltac wfs := repeat match goal with
  | H : wf _ |- _ => destruct H as (? & ? & ? & ?)
  | H : wf8 _ |- _ => destruct H as (? & ? & ? & ? & ? & ? & ? & ?)
  end.

Lemma halves_sub x y k b : word x -> word y -> (b = 0 /\ k = 0 \/ b = B - 1 /\ k = 1) ->
  exists l h k', halves (w128 (x - (y + shr b 63))) = (l, h) /\ word l /\
    (h = 0 /\ k' = 0 \/ h = B - 1 /\ k' = 1) /\ l - B * k' = x - y - k.
Proof.
  intros Hx Hy Hb. unfold halves.
  assert (Hs : shr b 63 = k) by (destruct Hb as [[-> ->]|[-> ->]]; [apply shr63_0|apply shr63_ones]).
  rewrite Hs. assert (Hk : 0 <= k <= 1) by lia.
  pose proof (sub_word x (y + k) Hx ltac:(unfold word in *; lia)) as S. cbv zeta in S.
  set (s := w128 (x - (y + k))) in *. exists (lo s), (hi s).
  destruct S as [(C & L & H)|(C & L & H)]; [exists 1|exists 0];
    (split; [reflexivity|split; [apply lo_range|split; [|lia]]]); [right|left]; lia.
Qed.

(** Four-limb subtraction: exact difference modulo B^4 and the borrow word. *)
Lemma sub4_spec a b : wf a -> wf b ->
  let (d, brw) := sub4 a b in
  wf d /\ ((val a < val b /\ brw = B - 1 /\ val d = val a - val b + B^4)
        \/ (val b <= val a /\ brw = 0 /\ val d = val a - val b)).
Proof.
  intros Ha Hb. wfs. unfold sub4.
  assert (E0 : w128 (w0 a - w0 b) = w128 (w0 a - (w0 b + shr 0 63)))
    by (rewrite shr63_0, Z.add_0_r; reflexivity).
  rewrite E0.
  destruct (halves_sub (w0 a) (w0 b) 0 0) as (r0 & h0 & k0 & -> & Hr0 & Hh0 & X0); auto.
  destruct (halves_sub (w1 a) (w1 b) k0 h0) as (r1 & h1 & k1 & -> & Hr1 & Hh1 & X1); auto.
  destruct (halves_sub (w2 a) (w2 b) k1 h1) as (r2 & h2 & k2 & -> & Hr2 & Hh2 & X2); auto.
  destruct (halves_sub (w3 a) (w3 b) k2 h2) as (r3 & h3 & k3 & -> & Hr3 & Hh3 & X3); auto.
  split; [unfold wf; cbn [w0 w1 w2 w3]; auto|].
  assert (E : val (L4 r0 r1 r2 r3) = val a - val b + B^4 * k3).
  { unfold val; cbn [w0 w1 w2 w3]. replace r0 with (w0 a - w0 b - 0 + B * k0) by lia.
    replace r1 with (w1 a - w1 b - k0 + B * k1) by lia. replace r2 with (w2 a - w2 b - k1 + B * k2) by lia.
    replace r3 with (w3 a - w3 b - k2 + B * k3) by lia. ring. }
  assert (R : 0 <= val (L4 r0 r1 r2 r3) < B^4).
  { unfold val, word in *; cbn [w0 w1 w2 w3]. clear - Hr0 Hr1 Hr2 Hr3. rewrite Bval in *. lia. }
  destruct Hh3 as [[-> ->]|[-> ->]]; [right|left]; lia.
Qed.

Lemma val_range a : wf a -> 0 <= val a < B^4.
Proof. intros H. wfs. unfold word, val in *. pose proof Bval as HB. rewrite HB in *. lia. Qed.

Lemma digit_inj x y x' y' : word x -> word x' -> x + B * y = x' + B * y' -> x = x' /\ y = y'.
Proof.
  unfold word. intros Hx Hx' E. assert (y = y'); [|split; [subst; lia|assumption]].
  pose proof Bpos. assert (B * (y - y') = x' - x) by lia.
  destruct (Z.lt_trichotomy (y - y') 0) as [L|[L|L]]; [|lia|].
  - assert (B * (y - y') <= B * (-1)) by (apply Z.mul_le_mono_nonneg_l; lia). lia.
  - assert (B * 1 <= B * (y - y')) by (apply Z.mul_le_mono_nonneg_l; lia). lia.
Qed.

Lemma val_inj a b : wf a -> wf b -> val a = val b -> a = b.
Proof.
  intros Ha Hb. wfs. unfold val. destruct a as [a0 a1 a2 a3], b as [b0 b1 b2 b3]; cbn [w0 w1 w2 w3] in *. intros E.
  assert (E' : a0 + B * (a1 + B * (a2 + B * a3)) = b0 + B * (b1 + B * (b2 + B * b3))).
  { replace (a0 + B * (a1 + B * (a2 + B * a3))) with (a0 + B * a1 + B ^ 2 * a2 + B ^ 3 * a3) by ring. rewrite E. ring. }
  clear E. apply digit_inj in E' as [-> E]; auto.
  apply digit_inj in E as [-> E]; auto. apply digit_inj in E as [-> ->]; auto.
Qed.

Lemma wadd_word x y : word (wadd x y).
Proof. unfold word. rewrite wadd_eq. apply Z.mod_pos_bound, Bpos. Qed.

Lemma wadd_spec x y c : word x -> word y -> word c ->
  exists k, 0 <= k /\ wadd (wadd x y) c + B * k = x + y + c.
Proof.
  intros. rewrite !wadd_eq. exists ((x + y + c) / B). unfold word in *. pose proof Bpos.
  rewrite Z.add_mod_idemp_l by lia. split; [apply Z.div_pos; lia|].
  pose proof (Z.div_mod (x + y + c) B). lia.
Qed.

(** Three-carry addition chain with wrapping top limb. *)
Lemma add_chain (P : l4 -> Prop) a0 a1 a2 a3 b0 b1 b2 b3 :
  word a0 -> word a1 -> word a2 -> word a3 -> word b0 -> word b1 -> word b2 -> word b3 ->
  (forall r k, wf r -> 0 <= k -> val r + B^4 * k = val (L4 a0 a1 a2 a3) + val (L4 b0 b1 b2 b3) -> P r) ->
  P (let (r0, c) := halves (a0 + b0) in
     let (r1, c) := halves (a1 + b1 + c) in
     let (r2, c) := halves (a2 + b2 + c) in
     L4 r0 r1 r2 (wadd (wadd a3 b3) c)).
Proof.
  intros ? ? ? ? ? ? ? ? HP.
  destruct (halves_spec (a0 + b0)) as (r0 & c0 & -> & ? & ? & E0).
  { unfold word in *. pose proof Bval. lia. }
  destruct (halves_spec (a1 + b1 + c0)) as (r1 & c1 & -> & ? & ? & E1).
  { unfold word in *. pose proof Bval. lia. }
  destruct (halves_spec (a2 + b2 + c1)) as (r2 & c2 & -> & ? & ? & E2).
  { unfold word in *. pose proof Bval. lia. }
  destruct (wadd_spec a3 b3 c2) as (k & Hk & E3); auto.
  apply (HP _ k); auto.
  - unfold wf; cbn [w0 w1 w2 w3]. auto using wadd_word.
  - unfold val; cbn [w0 w1 w2 w3].
    replace (wadd (wadd a3 b3) c2) with (a3 + b3 + c2 - B * k) by lia.
    replace r2 with (a2 + b2 + c1 - B * c2) by lia.
    replace r1 with (a1 + b1 + c0 - B * c1) by lia.
    replace r0 with (a0 + b0 - B * c0) by lia. ring.
Qed.

Lemma val_eta a : L4 (w0 a) (w1 a) (w2 a) (w3 a) = a. Proof. destruct a; reflexivity. Qed.

Lemma add_masked_gen l p brw : wf l -> wf p -> word (Z.land (w0 p) brw) -> word (Z.land (w1 p) brw) ->
  word (Z.land (w2 p) brw) -> word (Z.land (w3 p) brw) ->
  wf (add_masked l p brw) /\ exists k, 0 <= k /\ val (add_masked l p brw) + B^4 * k =
   val l + val (L4 (Z.land (w0 p) brw) (Z.land (w1 p) brw) (Z.land (w2 p) brw) (Z.land (w3 p) brw)).
Proof.
  intros Hl Hp ? ? ? ?. wfs. unfold add_masked. apply add_chain; auto.
  intros r k Hr Hk E. split; [exact Hr|]. exists k. split; [exact Hk|]. rewrite val_eta in E. exact E.
Qed.

Lemma add_masked_0 l p : wf l -> wf p -> wf (add_masked l p 0) /\ val (add_masked l p 0) = val l.
Proof.
  intros Hl Hp. destruct (add_masked_gen l p 0) as (Hw & k & Hk & E); rewrite ?Z.land_0_r; auto using word0.
  split; [exact Hw|]. rewrite !Z.land_0_r in E.
  assert (val (L4 0 0 0 0) = 0) as E0 by (unfold val; cbn [w0 w1 w2 w3]; lia).
  rewrite E0 in E. pose proof (val_range _ Hw) as R1. pose proof (val_range l Hl) as R2.
  assert (k = 0); [|lia]. rewrite Bval in *. lia.
Qed.

Lemma add_masked_1 l p : wf l -> wf p -> B^4 <= val l + val p ->
  wf (add_masked l p (B - 1)) /\ val (add_masked l p (B - 1)) = val l + val p - B^4.
Proof.
  intros Hl Hp Hge. pose proof (val_range l Hl) as R2. pose proof (val_range p Hp) as R3.
  pose proof Hp as (P0 & P1 & P2 & P3).
  destruct (add_masked_gen l p (B - 1)) as (Hw & k & Hk & E); rewrite ?land_ones_word by assumption; auto.
  split; [exact Hw|]. rewrite !land_ones_word in E by assumption. rewrite val_eta in E.
  pose proof (val_range _ Hw) as R1. 
  assert (k = 1); [|lia]. rewrite Bval in *. lia.
Qed.

Lemma cond_sub_spec l p : wf l -> wf p ->
  wf (cond_sub l p) /\ val (cond_sub l p) = if val l <? val p then val l else val l - val p.
Proof.
  intros Hl Hp. unfold cond_sub. pose proof (sub4_spec l p Hl Hp) as S.
  destruct (sub4 l p) as [d brw]. destruct S as (Hd & S).
  pose proof (val_range l Hl). pose proof (val_range p Hp).
  destruct S as [(C & -> & E)|(C & -> & E)].
  - destruct (add_masked_1 d p) as [Hw ->]; auto; [lia|]. split; [exact Hw|]. destruct (Z.ltb_spec (val l) (val p)); lia.
  - destruct (add_masked_0 d p) as [Hw ->]; auto. split; [exact Hw|]. destruct (Z.ltb_spec (val l) (val p)); lia.
Qed.

Lemma sub_spec a b p : wf a -> wf b -> wf p -> val b <= val a + val p ->
  wf (sub a b p) /\ val (sub a b p) = if val a <? val b then val a - val b + val p else val a - val b.
Proof.
  intros Ha Hb Hp Hle. unfold sub. pose proof (sub4_spec a b Ha Hb) as S.
  destruct (sub4 a b) as [d brw]. destruct S as (Hd & S).
  pose proof (val_range a Ha). pose proof (val_range b Hb).
  destruct S as [(C & -> & E)|(C & -> & E)].
  - destruct (add_masked_1 d p) as [Hw ->]; auto; [lia|]. split; [exact Hw|]. destruct (Z.ltb_spec (val a) (val b)); lia.
  - destruct (add_masked_0 d p) as [Hw ->]; auto. split; [exact Hw|]. destruct (Z.ltb_spec (val a) (val b)); lia.
Qed.

Lemma add_spec a b p : wf a -> wf b -> wf p -> val a + val b < B^4 ->
  wf (add a b p) /\
  val (add a b p) = if val a + val b <? val p then val a + val b else val a + val b - val p.
Proof.
  intros Ha Hb Hp Hlt. pose proof (val_range a Ha) as Ra. pose proof (val_range b Hb) as Rb.
  assert (E : add a b p = cond_sub (let (r0, c) := halves (w0 a + w0 b) in
     let (r1, c) := halves (w1 a + w1 b + c) in
     let (r2, c) := halves (w2 a + w2 b + c) in
     L4 r0 r1 r2 (wadd (wadd (w3 a) (w3 b)) c)) p).
  { unfold add. destruct (halves _) as [r0 c0]. destruct (halves _) as [r1 c1].
    destruct (halves _) as [r2 c2]. reflexivity. }
  rewrite E. clear E.
  apply (add_chain (fun r => wf (cond_sub r p) /\ val (cond_sub r p) =
    if val a + val b <? val p then val a + val b else val a + val b - val p));
    [wfs; assumption..|].
  intros r k Hr Hk E. rewrite !val_eta in E. pose proof (val_range r Hr) as Rr.
  assert (k = 0) by (rewrite Bval in *; lia).
  subst k. rewrite Z.mul_0_r, Z.add_0_r in E. rewrite <- E. apply cond_sub_spec; assumption.
Qed.

Lemma lor_shl1 x y : word x -> word y -> Z.lor (shl1 x) (shr y 63) = (2 * x) mod B + y / 2^63.
Proof.
  intros Hx Hy. rewrite shl1_mod, shr63. unfold word in *. rewrite Bval in *.
  assert (0 <= y / 2^63 < 2) by (split; [apply Z.div_pos; lia| apply Z.div_lt_upper_bound; lia]).
  assert (E : exists h, (2 * x) mod 18446744073709551616 = 2 * h /\ 0 <= h).
  { exists (x mod 2^63). split; [|apply Z.mod_pos_bound; lia].
    change 18446744073709551616 with (2 * 2^63). rewrite Z.mul_mod_distr_l by lia. reflexivity. }
  destruct E as (h & -> & Hh).
  assert (Z.land (2 * h) (y / 2 ^ 63) = 0) as L.
  { apply Z.bits_inj'. intros n Hn. rewrite Z.land_spec, Z.bits_0.
    destruct (Z.eq_dec n 0) as [->|Hn0].
    - rewrite Z.testbit_even_0. reflexivity.
    - assert (Z.testbit (y / 2^63) n = false) as ->; [|apply andb_false_r].
      assert (y / 2^63 = 0 \/ y / 2^63 = 1) as [->| ->] by lia; [apply Z.bits_0|].
      apply Z.bits_above_log2; cbn; lia. }
  rewrite <- Z.lxor_lor by exact L. symmetry. apply Z.add_nocarry_lxor. exact L.
Qed.

Lemma dbl_word x : word x -> (2 * x) mod B = 2 * x - B * (x / 2^63).
Proof.
  intros Hx. unfold word in Hx. rewrite Bval in *.
  assert (x / 2^63 = (2 * x) / 18446744073709551616) as ->.
  { change 18446744073709551616 with (2 * 2^63). rewrite Z.div_mul_cancel_l by lia. reflexivity. }
  pose proof (Z.div_mod (2 * x) 18446744073709551616). lia.
Qed.

Lemma lor_word x y : word x -> word y -> word (Z.lor (shl1 x) (shr y 63)).
Proof.
  intros Hx Hy. rewrite lor_shl1 by assumption. rewrite dbl_word by assumption. unfold word in *. rewrite Bval in *.
  pose proof (Z.div_mod x (2^63)). pose proof (Z.mod_pos_bound x (2^63)).
  assert (0 <= y / 2^63 < 2) by (split; [apply Z.div_pos; lia| apply Z.div_lt_upper_bound; lia]).
  lia.
Qed.

Lemma shl1_word x : word (shl1 x). Proof. unfold word. rewrite shl1_mod. apply Z.mod_pos_bound, Bpos. Qed.

Lemma double_spec a p : wf a -> wf p -> 2 * val a < B^4 ->
  wf (double a p) /\ val (double a p) = if 2 * val a <? val p then 2 * val a else 2 * val a - val p.
Proof.
  intros Ha Hp Hlt. unfold double. wfs.
  match goal with |- wf (cond_sub ?l p) /\ _ => assert (Hl : wf l) end.
  { unfold wf; cbn [w0 w1 w2 w3]. auto using lor_word, shl1_word. }
  match goal with |- wf (cond_sub ?l p) /\ _ => pose proof (cond_sub_spec l p Hl ltac:(unfold wf; auto)) as S;
    assert (E : val l = 2 * val a) end.
  { unfold val; cbn [w0 w1 w2 w3]. rewrite !lor_shl1 by assumption. rewrite !shl1_mod. rewrite !dbl_word by assumption.
    assert (w3 a / 2^63 = 0) as ->.
    { apply Z.div_small. unfold val, word in *. rewrite Bval in *. lia. }
    ring. }
  rewrite E in S. exact S.
Qed.

Lemma neg_spec a p : wf a -> wf p -> val a <= val p ->
  wf (neg a p) /\ val (neg a p) = if val a =? 0 then 0 else val p - val a.
Proof.
  intros Ha Hp Hle. unfold neg.
  destruct (Z.lor (Z.lor (Z.lor (w0 a) (w1 a)) (w2 a)) (w3 a) =? 0) eqn:E.
  - apply Z.eqb_eq in E. apply Z.lor_eq_0_iff in E as (E & E3). apply Z.lor_eq_0_iff in E as (E & E2).
    apply Z.lor_eq_0_iff in E as (E0 & E1). split; [exact Ha|].
    unfold val. rewrite E0, E1, E2, E3. rewrite !Z.mul_0_r. reflexivity.
  - assert (val a <> 0) as Hnz.
    { intros Hz. apply Z.eqb_neq in E. apply E. wfs. unfold val, word in *. rewrite Bval in *.
      assert (w0 a = 0) by lia. assert (w1 a = 0) by lia. assert (w2 a = 0) by lia. assert (w3 a = 0) by lia.
      repeat match goal with H : _ a = 0 |- _ => rewrite H end. reflexivity. }
    destruct (Z.eqb_spec (val a) 0) as [|_]; [contradiction|].
    wfs.
    assert (E0 : w128 (w0 p - w0 a) = w128 (w0 p - (w0 a + shr 0 63)))
      by (rewrite shr63_0, Z.add_0_r; reflexivity).
    rewrite E0.
    destruct (halves_sub (w0 p) (w0 a) 0 0) as (r0 & h0 & k0 & -> & Hr0 & Hh0 & X0); auto.
    destruct (halves_sub (w1 p) (w1 a) k0 h0) as (r1 & h1 & k1 & -> & Hr1 & Hh1 & X1); auto.
    destruct (halves_sub (w2 p) (w2 a) k1 h1) as (r2 & h2 & k2 & -> & Hr2 & Hh2 & X2); auto.
    assert (Hs : shr h2 63 = k2) by (destruct Hh2 as [[-> ->]|[-> ->]]; [apply shr63_0|apply shr63_ones]).
    rewrite Hs.
    assert (E3 : wsub (wsub (w3 p) (w3 a)) k2 = w3 p - w3 a - k2).
    { rewrite !wsub_eq. pose proof Bpos. rewrite Zminus_mod_idemp_l. apply Z.mod_small.
      unfold val, word in *. rewrite Bval in *. lia. }
    rewrite E3. unfold wf, word, val in *; cbn [w0 w1 w2 w3]. rewrite Bval in *. lia.
Qed.

(** ** Products *)
Ltac hstep :=
  match goal with
  | |- context[halves ?e] =>
      let l := fresh "l" in let h := fresh "h" in let E := fresh "E" in
      let Hl := fresh "Hl" in let Hh := fresh "Hh" in
      destruct (halves_spec e) as (l & h & -> & Hl & Hh & E);
      [ first
        [ lazymatch e with
          | ?x * ?y => replace e with (0 + x * y + 0) by ring; apply mac_no_overflow; auto using word0
          | ?x * ?y + ?c => replace e with (0 + x * y + c) by ring; apply mac_no_overflow; auto using word0
          | ?c + ?x * ?y + ?d => apply mac_no_overflow; auto using word0
          end
        | unfold word in *; pose proof Bval; lia ]
      | cbv beta iota ]
  end.

Ltac helim := repeat match goal with E : ?l + B * ?h = ?r |- _ =>
  is_var l; assert (l = r - B * h) by lia; clear E; subst l end.

Lemma mul_wide_spec a b : wf a -> wf b -> wf8 (mul_wide a b) /\ val8 (mul_wide a b) = val a * val b.
Proof.
  intros Ha Hb. wfs. unfold mul_wide. repeat hstep.
  split; [unfold wf8; cbn [v0 v1 v2 v3 v4 v5 v6 v7]; auto 20|].
  unfold val8, val; cbn [v0 v1 v2 v3 v4 v5 v6 v7].
  repeat match goal with H : word ?x |- _ => clear H end.
  helim. ring.
Qed.
