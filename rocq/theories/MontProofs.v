(** Montgomery reduction, multiplication and squaring (LimbModel.v). *)
From Coq Require Import ZArith List Bool Lia Znumtheory.
From Verif Require Import LimbModel LimbProofs.
Import ListNotations.
Local Open Scope Z_scope.

(** Conditions on a modulus and its [INV] constant that the code relies on. *)
Record mod_ok (p : l4) (inv : Z) : Prop := {
  mo_wf : wf p;
  mo_inv : (w0 p * inv + 1) mod B = 0;
  mo_half : 2 * val p < B^4;
  mo_one : 1 < val p
}.

Lemma rhs_zero p inv l : mod_ok p inv -> word l ->
  exists t, wmul l inv * w0 p + l = B * t.
Proof.
  intros [_ Hinv _ _] Hl. rewrite wmul_eq. pose proof Bpos.
  exists ((((l * inv) mod B) * w0 p + l) / B).
  assert (E : (((l * inv) mod B) * w0 p + l) mod B = 0).
  { rewrite <- Z.add_mod_idemp_l by lia. rewrite Z.mul_mod_idemp_l by lia.
    rewrite Z.add_mod_idemp_l by lia.
    replace (l * inv * w0 p + l) with (l * (w0 p * inv + 1)) by ring.
    rewrite <- Z.mul_mod_idemp_r by lia. rewrite Hinv, Z.mul_0_r. apply Z.mod_0_l. lia. }
  pose proof (Z.div_mod (((l * inv) mod B) * w0 p + l) B). lia.
Qed.

Lemma wmul_word x y : word (wmul x y).
Proof. unfold word. rewrite wmul_eq. apply Z.mod_pos_bound, Bpos. Qed.

(** First line of each round: the low half vanishes. *)
Lemma halves_rhs p inv l : mod_ok p inv -> word l -> word (w0 p) ->
  exists h, halves (wmul l inv * w0 p + l) = (0, h) /\ word h /\ B * h = wmul l inv * w0 p + l.
Proof.
  intros Hm Hl Hp. destruct (rhs_zero p inv l Hm Hl) as (t & Ht).
  destruct (halves_spec (wmul l inv * w0 p + l)) as (x & h & E & Hx & Hh & S).
  { replace (wmul l inv * w0 p + l) with (0 + wmul l inv * w0 p + l) by ring.
    apply mac_no_overflow; auto using word0, wmul_word. }
  assert (x = 0).
  { rewrite Ht in S. destruct (digit_inj x h 0 t) as [E1 _]; auto using word0. }
  subst x. exists h. split; [exact E|]. split; [exact Hh|]. lia.
Qed.

Lemma val8_nonneg a : wf8 a -> 0 <= val8 a.
Proof. intros (? & ? & ? & ? & ? & ? & ? & ?). unfold val8, word in *. rewrite Bval in *. lia. Qed.

Lemma mont_spec a p inv : mod_ok p inv -> wf8 a -> val8 a < val p * B^4 ->
  wf (mont a p inv) /\ val (mont a p inv) < val p /\
  exists M, val (mont a p inv) * B^4 = val8 a + M * val p.
Proof.
  intros Hm Ha Hlt. pose proof (mo_wf _ _ Hm) as Hp. pose proof (val_range p Hp) as Rp.
  destruct (mo_wf _ _ Hm) as (P0 & P1 & P2 & P3).
  destruct a as [a0 a1 a2 a3 a4 a5 a6 a7]; unfold mont; cbn [v0 v1 v2 v3 v4 v5 v6 v7].
  assert (Hpos : 0 <= val8 (L8 a0 a1 a2 a3 a4 a5 a6 a7)).
  { apply val8_nonneg, Ha. }
  destruct Ha as (? & ? & ? & ? & ? & ? & ? & ?). cbn [v0 v1 v2 v3 v4 v5 v6 v7] in *.
  destruct (halves_rhs p inv a0) as (d0 & -> & ? & E0); auto.
  pose proof (wmul_word a0 inv) as W0. set (m0 := wmul a0 inv) in *. clearbody m0.
  hstep. hstep. hstep. hstep.
  match goal with |- context[wmul ?x inv] => destruct (halves_rhs p inv x) as (d1 & -> & ? & E5); auto;
    pose proof (wmul_word x inv) as W1; set (m1 := wmul x inv) in *; clearbody m1 end.
  hstep. hstep. hstep. hstep.
  match goal with |- context[wmul ?x inv] => destruct (halves_rhs p inv x) as (d2 & -> & ? & E10); auto;
    pose proof (wmul_word x inv) as W2; set (m2 := wmul x inv) in *; clearbody m2 end.
  hstep. hstep. hstep. hstep.
  match goal with |- context[wmul ?x inv] => destruct (halves_rhs p inv x) as (d3 & -> & ? & E15); auto;
    pose proof (wmul_word x inv) as W3; set (m3 := wmul x inv) in *; clearbody m3 end.
  hstep. hstep. hstep.
  match goal with |- context[wadd (wadd ?x ?y) ?z] =>
    destruct (wadd_spec x y z) as (k & Hk & E19); auto;
    pose proof (wadd_word (wadd x y) z) as W7;
    set (top := wadd (wadd x y) z) in *; clearbody top end.
  match goal with |- wf (cond_sub ?l p) /\ _ => set (r := l) end.
  assert (Hr : wf r) by (unfold wf, r; cbn [w0 w1 w2 w3]; auto).
  assert (EQ : B^4 * (val r + B^4 * k) = val8 (L8 a0 a1 a2 a3 a4 a5 a6 a7) + (m0 + B * m1 + B^2 * m2 + B^3 * m3) * val p).
  { unfold r, val8, val; cbn [w0 w1 w2 w3 v0 v1 v2 v3 v4 v5 v6 v7].
    repeat match goal with H : word ?x |- _ => clear H end. clear Hlt Rp Hm Hpos Hk Hr r.
    repeat match goal with
    | E : ?x + B * ?h = ?old + ?m * ?q + ?d |- _ => is_var old; assert (old = x + B * h - m * q - d) by lia; clear E; subst old
    | E : B * ?h = ?m * ?q + ?old |- _ => is_var old; assert (old = B * h - m * q) by lia; clear E; subst old
    | E : ?x + B * ?h = ?old + ?e + ?d |- _ => is_var old; assert (old = x + B * h - e - d) by lia; clear E; subst old
    | E : ?x + B * ?h = ?old + ?d |- _ => is_var old; assert (old = x + B * h - d) by lia; clear E; subst old
    end.
    ring. }
  set (M := m0 + B * m1 + B^2 * m2 + B^3 * m3) in *.
  assert (HM : 0 <= M < B^4).
  { unfold M, word in *. clear - W0 W1 W2 W3. rewrite Bval in *. lia. }
  assert (HV : val r + B^4 * k < 2 * val p).
  { assert (M * val p < B^4 * val p) by (apply Z.mul_lt_mono_pos_r; pose proof (mo_one _ _ Hm); lia).
    apply (Z.mul_lt_mono_pos_l (B^4)); [rewrite Bval; lia|]. rewrite EQ. lia. }
  pose proof (val_range r Hr) as Rr. pose proof (mo_half _ _ Hm) as Hhalf.
  assert (k = 0) by (rewrite Bval in *; lia). subst k. rewrite Z.mul_0_r, Z.add_0_r in *.
  destruct (cond_sub_spec r p Hr Hp) as [Hw Ec]. split; [exact Hw|].
  rewrite Ec. destruct (Z.ltb_spec (val r) (val p)) as [C|C].
  - split; [exact C|]. exists M. lia.
  - split; [lia|]. exists (M - B^4). lia.
Qed.

(** ** Multiplication *)
Lemma mul_spec a b p inv : mod_ok p inv -> wf a -> wf b -> val a * val b < val p * B^4 ->
  wf (mul a b p inv) /\ val (mul a b p inv) < val p /\
  exists M, val (mul a b p inv) * B^4 = val a * val b + M * val p.
Proof.
  intros Hm Ha Hb Hlt. unfold mul. destruct (mul_wide_spec a b Ha Hb) as [Hw E].
  rewrite <- E in *. apply mont_spec; assumption.
Qed.

(** ** Squaring.  [square_lost_carry a] is the carry out of limb 5 that normal.rs:139
    ([l5.wrapping_add(c)]) discards; it is recomputed here from lines 125-138. *)
Definition square_lost_carry (a : l4) : Z :=
  let (l1, c) := halves (w1 a * w0 a) in
  let (l2, c) := halves (w2 a * w0 a + c) in
  let (l3, c) := halves (w3 a * w0 a + c) in
  let (l4_, c) := halves (w1 a * w3 a + c) in
  let (l5, l6) := halves (w2 a * w3 a + c) in
  let (l3, c) := halves (w1 a * w2 a + l3) in
  let (l4_, c) := halves (l4_ + c) in
  (l5 + c) / B.

Lemma shr_word x : word x -> word (shr x 63).
Proof.
  unfold word. rewrite shr63. intros H. split; [apply Z.div_pos; lia|].
  apply Z.div_lt_upper_bound; [lia|]. rewrite Bval in *. lia.
Qed.

Lemma lor_eq x y : word x -> word y -> Z.lor (shl1 x) (shr y 63) = 2 * x - B * shr x 63 + shr y 63.
Proof. intros Hx Hy. rewrite lor_shl1 by assumption. rewrite dbl_word by assumption. rewrite ?shr63. reflexivity. Qed.
Lemma shl1_eq x : word x -> shl1 x = 2 * x - B * shr x 63.
Proof. intros Hx. rewrite shl1_mod. rewrite dbl_word by assumption. rewrite ?shr63. reflexivity. Qed.

Lemma square_wide_spec a : wf a ->
  wf8 (square_wide a) /\ 0 <= square_lost_carry a <= 1 /\
  val8 (square_wide a) = val a * val a - 2 * B^6 * square_lost_carry a.
Proof.
  intros (A0 & A1 & A2 & A3). unfold square_wide, square_lost_carry.
  hstep. hstep. hstep. hstep. hstep. hstep. hstep.
  (* the discarded carry *)
  match goal with |- context[wadd ?x ?y] => set (k := (x + y) / B); set (lw5 := wadd x y);
    assert (Hk : lw5 + B * k = x + y);
    [unfold lw5, k; rewrite wadd_eq; pose proof (Z.div_mod (x + y) B); pose proof Bpos; lia|];
    assert (Hk1 : 0 <= k <= 1);
    [unfold k, word in *; pose proof Bval; split; [apply Z.div_pos; lia|];
     apply Z.lt_succ_r, Z.div_lt_upper_bound; lia|];
    assert (Hw5 : word lw5) by apply wadd_word;
    clearbody k lw5 end.
  match goal with |- context[wadd (shr ?z 63) _] => pose proof (shr_word z ltac:(assumption)) end.
  repeat match goal with
  | |- context[Z.lor (shl1 ?x) (shr ?y 63)] =>
      let E := fresh "S" in let z := fresh "z" in
      pose proof (lor_eq x y ltac:(assumption) ltac:(assumption)) as E;
      pose proof (lor_word x y ltac:(assumption) ltac:(assumption));
      set (z := Z.lor (shl1 x) (shr y 63)) in *; clearbody z
  | |- context[shl1 ?x] =>
      let E := fresh "S" in let z := fresh "z" in
      pose proof (shl1_eq x ltac:(assumption)) as E;
      pose proof (shl1_word x);
      set (z := shl1 x) in *; clearbody z
  end.
  hstep. hstep. hstep. hstep. hstep. hstep. hstep.
  match goal with |- context[wadd ?x ?y] =>
    destruct (wadd_spec x 0 y) as (j & Hj & Ej); auto using word0;
    pose proof (wadd_word x y) as Wt;
    replace (wadd (wadd x 0) y) with (wadd x y) in Ej
      by (rewrite !wadd_eq;rewrite Z.add_0_r, Z.add_mod_idemp_l by (pose proof Bpos; lia); reflexivity);
    set (top := wadd x y) in *; clearbody top end.
  match goal with |- wf8 ?r /\ _ => set (res := r) end.
  assert (Hres : wf8 res) by (unfold wf8, res; cbn [v0 v1 v2 v3 v4 v5 v6 v7]; auto 20).
  assert (Eres : val8 res + B^8 * j = val a * val a - 2 * B^6 * k).
  { unfold res, val8, val; cbn [v0 v1 v2 v3 v4 v5 v6 v7].
    repeat match goal with H : word ?x |- _ => clear H end. clear Hres res Hk1 Hj.
    repeat match goal with S : ?z = 2 * _ - _ + _ |- _ => subst z | S : ?z = 2 * _ - _ |- _ => subst z end.
    match type of Ej with _ = ?X + 0 + ?Y => assert (El7 : top = X + Y - B * j) by lia end. subst top. clear Ej.
    helim. ring. }
  assert (j = 0).
  { pose proof (val_range a (conj A0 (conj A1 (conj A2 A3)))) as Ra.
    assert (val a * val a < B^8) by (replace (B^8) with (B^4 * B^4) by ring; apply Z.mul_lt_mono_nonneg; lia).
    pose proof (val8_nonneg res Hres). rewrite Bval in *. lia. }
  subst j. split; [exact Hres|]. split; [exact Hk1|]. lia.
Qed.
