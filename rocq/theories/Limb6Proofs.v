(** Proofs about Limb6Model.v. *)
From Coq Require Import ZArith List Bool Lia Znumtheory.
From Verif Require Import LimbModel LimbProofs MontProofs Limb6Model.
Import ListNotations.
Local Open Scope Z_scope.

Definition val6 (a : limb6) : Z := u0 a + B * u1 a + B^2 * u2 a + B^3 * u3 a + B^4 * u4 a + B^5 * u5 a.
Definition val12 (a : limb12) : Z :=
  t0 a + B * t1 a + B^2 * t2 a + B^3 * t3 a + B^4 * t4 a + B^5 * t5 a + B^6 * t6 a + B^7 * t7 a + B^8 * t8 a + B^9 * t9 a + B^10 * t10 a + B^11 * t11 a.
Definition wf6 (a : limb6) : Prop := word (u0 a) /\ word (u1 a) /\ word (u2 a) /\ word (u3 a) /\ word (u4 a) /\ word (u5 a).
Definition wf12 (a : limb12) : Prop :=
  word (t0 a) /\ word (t1 a) /\ word (t2 a) /\ word (t3 a) /\ word (t4 a) /\ word (t5 a) /\
  word (t6 a) /\ word (t7 a) /\ word (t8 a) /\ word (t9 a) /\ word (t10 a) /\ word (t11 a).
Ltac wfs6 := repeat match goal with
  | H : wf6 _ |- _ => destruct H as (? & ? & ? & ? & ? & ?)
  | H : wf12 _ |- _ => destruct H as (? & ? & ? & ? & ? & ? & ? & ? & ? & ? & ? & ?)
  end.
Ltac p6 := cbn [u0 u1 u2 u3 u4 u5].
Ltac p12 := cbn [t0 t1 t2 t3 t4 t5 t6 t7 t8 t9 t10 t11].

Lemma val6_range a : wf6 a -> 0 <= val6 a < B^6.
Proof. intros H. wfs6. unfold word, val6 in *. rewrite Bval in *. lia. Qed.
Lemma val12_nonneg a : wf12 a -> 0 <= val12 a.
Proof. intros H. wfs6. unfold word, val12 in *. rewrite Bval in *. lia. Qed.
Lemma val6_inj a b : wf6 a -> wf6 b -> val6 a = val6 b -> a = b.
Proof.
  intros Ha Hb. wfs6. unfold val6. destruct a as [a0 a1 a2 a3 a4 a5], b as [b0 b1 b2 b3 b4 b5]; p6; cbn [u0 u1 u2 u3 u4 u5] in *. intros E.
  assert (E' : a0 + B * (a1 + B * (a2 + B * (a3 + B * (a4 + B * a5)))) = b0 + B * (b1 + B * (b2 + B * (b3 + B * (b4 + B * b5))))).
  { transitivity (a0 + B * a1 + B ^ 2 * a2 + B ^ 3 * a3 + B ^ 4 * a4 + B ^ 5 * a5); [ring|]. rewrite E. ring. }
  clear E. apply digit_inj in E' as [-> E]; auto. apply digit_inj in E as [-> E]; auto. apply digit_inj in E as [-> E]; auto.
  apply digit_inj in E as [-> E]; auto. apply digit_inj in E as [-> ->]; auto.
Qed.
Lemma val6_eta a : M6 (u0 a) (u1 a) (u2 a) (u3 a) (u4 a) (u5 a) = a. Proof. destruct a; reflexivity. Qed.

Lemma sub_wide6_spec a b : wf6 a -> wf6 b ->
  let (d, brw) := sub_wide6 a b in
  wf6 d /\ ((val6 a < val6 b /\ brw = B - 1 /\ val6 d = val6 a - val6 b + B^6)
        \/ (val6 b <= val6 a /\ brw = 0 /\ val6 d = val6 a - val6 b)).
Proof.
  intros Ha Hb. wfs6. unfold sub_wide6.
  assert (E0 : w128 (u0 a - u0 b) = w128 (u0 a - (u0 b + shr 0 63))) by (rewrite shr63_0, Z.add_0_r; reflexivity).
  rewrite E0.
  destruct (halves_sub (u0 a) (u0 b) 0 0) as (r0 & h0 & k0 & -> & Hr0 & Hh0 & X0); auto.
  destruct (halves_sub (u1 a) (u1 b) k0 h0) as (r1 & h1 & k1 & -> & Hr1 & Hh1 & X1); auto.
  destruct (halves_sub (u2 a) (u2 b) k1 h1) as (r2 & h2 & k2 & -> & Hr2 & Hh2 & X2); auto.
  destruct (halves_sub (u3 a) (u3 b) k2 h2) as (r3 & h3 & k3 & -> & Hr3 & Hh3 & X3); auto.
  destruct (halves_sub (u4 a) (u4 b) k3 h3) as (r4 & h4 & k4 & -> & Hr4 & Hh4 & X4); auto.
  destruct (halves_sub (u5 a) (u5 b) k4 h4) as (r5 & h5 & k5 & -> & Hr5 & Hh5 & X5); auto.
  assert (W : wf6 (M6 r0 r1 r2 r3 r4 r5)) by (unfold wf6; p6; auto 10).
  split; [exact W|].
  assert (E : val6 (M6 r0 r1 r2 r3 r4 r5) = val6 a - val6 b + B^6 * k5).
  { unfold val6; p6. replace r0 with (u0 a - u0 b - 0 + B * k0) by lia.
    replace r1 with (u1 a - u1 b - k0 + B * k1) by lia. replace r2 with (u2 a - u2 b - k1 + B * k2) by lia.
    replace r3 with (u3 a - u3 b - k2 + B * k3) by lia. replace r4 with (u4 a - u4 b - k3 + B * k4) by lia.
    replace r5 with (u5 a - u5 b - k4 + B * k5) by lia. ring. }
  pose proof (val6_range _ W) as R.
  destruct Hh5 as [[-> ->]|[-> ->]]; [right|left]; lia.
Qed.

Lemma add_chain6 (P : limb6 -> Prop) a0 a1 a2 a3 a4 a5 b0 b1 b2 b3 b4 b5 :
  word a0 -> word a1 -> word a2 -> word a3 -> word a4 -> word a5 -> word b0 -> word b1 -> word b2 -> word b3 -> word b4 -> word b5 ->
  (forall r k, wf6 r -> 0 <= k -> val6 r + B^6 * k = val6 (M6 a0 a1 a2 a3 a4 a5) + val6 (M6 b0 b1 b2 b3 b4 b5) -> P r) ->
  P (let (r0, c) := halves (a0 + b0) in
     let (r1, c) := halves (a1 + b1 + c) in
     let (r2, c) := halves (a2 + b2 + c) in
     let (r3, c) := halves (a3 + b3 + c) in
     let (r4, c) := halves (a4 + b4 + c) in
     M6 r0 r1 r2 r3 r4 (wadd (wadd a5 b5) c)).
Proof.
  intros ? ? ? ? ? ? ? ? ? ? ? ? HP.
  destruct (halves_spec (a0 + b0)) as (r0 & c0 & -> & ? & ? & E0); [unfold word in *; pose proof Bval; lia|].
  destruct (halves_spec (a1 + b1 + c0)) as (r1 & c1 & -> & ? & ? & E1); [unfold word in *; pose proof Bval; lia|].
  destruct (halves_spec (a2 + b2 + c1)) as (r2 & c2 & -> & ? & ? & E2); [unfold word in *; pose proof Bval; lia|].
  destruct (halves_spec (a3 + b3 + c2)) as (r3 & c3 & -> & ? & ? & E3); [unfold word in *; pose proof Bval; lia|].
  destruct (halves_spec (a4 + b4 + c3)) as (r4 & c4 & -> & ? & ? & E4); [unfold word in *; pose proof Bval; lia|].
  destruct (wadd_spec a5 b5 c4) as (k & Hk & E5); auto.
  apply (HP _ k); auto.
  - unfold wf6; p6. auto 10 using wadd_word.
  - unfold val6; p6.
    replace (wadd (wadd a5 b5) c4) with (a5 + b5 + c4 - B * k) by lia.
    replace r4 with (a4 + b4 + c3 - B * c4) by lia. replace r3 with (a3 + b3 + c2 - B * c3) by lia.
    replace r2 with (a2 + b2 + c1 - B * c2) by lia. replace r1 with (a1 + b1 + c0 - B * c1) by lia.
    replace r0 with (a0 + b0 - B * c0) by lia. ring.
Qed.

Definition mask6 (p : limb6) (brw : Z) : limb6 :=
  M6 (Z.land (u0 p) brw) (Z.land (u1 p) brw) (Z.land (u2 p) brw) (Z.land (u3 p) brw) (Z.land (u4 p) brw) (Z.land (u5 p) brw).
Lemma add_masked6_gen l p brw : wf6 l -> wf6 (mask6 p brw) ->
  wf6 (add_masked6 l p brw) /\ exists k, 0 <= k /\ val6 (add_masked6 l p brw) + B^6 * k = val6 l + val6 (mask6 p brw).
Proof.
  intros Hl (? & ? & ? & ? & ? & ?). wfs6. unfold mask6 in *. cbn [u0 u1 u2 u3 u4 u5] in *. unfold add_masked6. apply add_chain6; auto.
  intros r k Hr Hk E. split; [exact Hr|]. exists k. split; [exact Hk|]. rewrite val6_eta in E. exact E.
Qed.
Lemma add_masked6_0 l p : wf6 l -> wf6 (add_masked6 l p 0) /\ val6 (add_masked6 l p 0) = val6 l.
Proof.
  intros Hl. assert (M0 : mask6 p 0 = zero6) by (unfold mask6; rewrite !Z.land_0_r; reflexivity).
  assert (W0 : wf6 zero6) by (unfold wf6, zero6; p6; auto 10 using word0).
  destruct (add_masked6_gen l p 0) as (Hw & k & Hk & E); rewrite ?M0 in *; auto.
  split; [exact Hw|]. change (val6 zero6) with (0 + B * 0 + B^2 * 0 + B^3 * 0 + B^4 * 0 + B^5 * 0) in E.
  pose proof (val6_range _ Hw) as R1. pose proof (val6_range l Hl) as R2.
  assert (k = 0); [|lia]. rewrite Bval in *. lia.
Qed.
Lemma add_masked6_1 l p : wf6 l -> wf6 p -> B^6 <= val6 l + val6 p ->
  wf6 (add_masked6 l p (B - 1)) /\ val6 (add_masked6 l p (B - 1)) = val6 l + val6 p - B^6.
Proof.
  intros Hl Hp Hge. pose proof (val6_range l Hl) as R2. pose proof (val6_range p Hp) as R3.
  assert (M1 : mask6 p (B - 1) = p). { unfold mask6. wfs6. rewrite !land_ones_word by assumption. apply val6_eta. }
  destruct (add_masked6_gen l p (B - 1)) as (Hw & k & Hk & E); rewrite ?M1 in *; auto.
  split; [exact Hw|]. pose proof (val6_range _ Hw) as R1. assert (k = 1); [|lia]. rewrite Bval in *. lia.
Qed.

Lemma sub6_spec a b p : wf6 a -> wf6 b -> wf6 p -> val6 b <= val6 a + val6 p ->
  wf6 (sub6 a b p) /\ val6 (sub6 a b p) = if val6 a <? val6 b then val6 a - val6 b + val6 p else val6 a - val6 b.
Proof.
  intros Ha Hb Hp Hle. unfold sub6. pose proof (sub_wide6_spec a b Ha Hb) as S.
  destruct (sub_wide6 a b) as [d brw]. destruct S as (Hd & S).
  pose proof (val6_range a Ha). pose proof (val6_range b Hb).
  destruct S as [(C & -> & E)|(C & -> & E)].
  - destruct (add_masked6_1 d p) as [Hw ->]; auto; [lia|]. split; [exact Hw|]. destruct (Z.ltb_spec (val6 a) (val6 b)); lia.
  - destruct (add_masked6_0 d p) as [Hw ->]; auto. split; [exact Hw|]. destruct (Z.ltb_spec (val6 a) (val6 b)); lia.
Qed.
Lemma sub_p6 a p : wf6 a -> wf6 p ->
  wf6 (sub6 a p p) /\ val6 (sub6 a p p) = if val6 a <? val6 p then val6 a else val6 a - val6 p.
Proof.
  intros Ha Hp. pose proof (val6_range a Ha). destruct (sub6_spec a p p Ha Hp Hp ltac:(lia)) as [W E]. split; [exact W|].
  rewrite E. destruct (Z.ltb_spec (val6 a) (val6 p)); lia.
Qed.

Lemma add6_spec a b p : wf6 a -> wf6 b -> wf6 p -> val6 a + val6 b < B^6 ->
  wf6 (add6 a b p) /\ val6 (add6 a b p) = if val6 a + val6 b <? val6 p then val6 a + val6 b else val6 a + val6 b - val6 p.
Proof.
  intros Ha Hb Hp Hlt. pose proof (val6_range a Ha) as Ra. pose proof (val6_range b Hb) as Rb.
  assert (E : add6 a b p = (fun r => sub6 r p p) (let (r0, c) := halves (u0 a + u0 b) in
     let (r1, c) := halves (u1 a + u1 b + c) in
     let (r2, c) := halves (u2 a + u2 b + c) in
     let (r3, c) := halves (u3 a + u3 b + c) in
     let (r4, c) := halves (u4 a + u4 b + c) in
     M6 r0 r1 r2 r3 r4 (wadd (wadd (u5 a) (u5 b)) c))).
  { unfold add6. destruct (halves _) as [r0 c0]. destruct (halves _) as [r1 c1].
    destruct (halves _) as [r2 c2]. destruct (halves _) as [r3 c3]. destruct (halves _) as [r4 c4]. reflexivity. }
  rewrite E. clear E.
  apply (add_chain6 (fun r => wf6 (sub6 r p p) /\ val6 (sub6 r p p) =
    if val6 a + val6 b <? val6 p then val6 a + val6 b else val6 a + val6 b - val6 p)); [wfs6; assumption..|].
  intros r k Hr Hk E. rewrite !val6_eta in E. pose proof (val6_range r Hr) as Rr.
  assert (k = 0) by (rewrite Bval in *; lia).
  subst k. rewrite Z.mul_0_r, Z.add_0_r in E. rewrite <- E. apply sub_p6; assumption.
Qed.

Lemma double6_val a0 a1 a2 a3 a4 a5 : word a0 -> word a1 -> word a2 -> word a3 -> word a4 -> word a5 -> a5 / 2 ^ 63 = 0 ->
  shl1 a0 + B * Z.lor (shl1 a1) (shr a0 63) + B^2 * Z.lor (shl1 a2) (shr a1 63) + B^3 * Z.lor (shl1 a3) (shr a2 63) + B^4 * Z.lor (shl1 a4) (shr a3 63)
    + B^5 * Z.lor (shl1 a5) (shr a4 63) = 2 * (a0 + B * a1 + B^2 * a2 + B^3 * a3 + B^4 * a4 + B^5 * a5).
Proof.
  intros. rewrite !lor_shl1 by assumption. rewrite !shl1_mod. rewrite !dbl_word by assumption. rewrite H5.
  generalize (a0 / 2 ^ 63) (a1 / 2 ^ 63) (a2 / 2 ^ 63) (a3 / 2 ^ 63) (a4 / 2 ^ 63). clear. intros. ring.
Qed.
Lemma top6 a : wf6 a -> 2 * val6 a < B^6 -> u5 a / 2 ^ 63 = 0.
Proof. intros (A0 & A1 & A2 & A3 & A4 & A5) H. apply Z.div_small. unfold val6, word in *. rewrite Bval in *. lia. Qed.
Lemma double6_spec a p : wf6 a -> wf6 p -> 2 * val6 a < B^6 ->
  wf6 (double6 a p) /\ val6 (double6 a p) = if 2 * val6 a <? val6 p then 2 * val6 a else 2 * val6 a - val6 p.
Proof.
  intros Ha Hp Hlt. pose proof (top6 a Ha Hlt) as T. unfold double6. destruct Ha as (A0 & A1 & A2 & A3 & A4 & A5).
  match goal with |- wf6 (sub6 ?l p p) /\ _ => set (r := l); assert (Hl : wf6 r) end.
  { unfold wf6, r; p6. auto 10 using lor_word, shl1_word. }
  assert (E : val6 r = 2 * val6 a) by (unfold val6, r; p6; apply double6_val; assumption).
  clearbody r. rewrite <- E. apply sub_p6; assumption.
Qed.

Lemma neg6_spec a p : wf6 a -> wf6 p -> val6 a <= val6 p ->
  wf6 (neg6 a p) /\ val6 (neg6 a p) = if val6 a =? 0 then 0 else val6 p - val6 a.
Proof.
  intros Ha Hp Hle. unfold neg6.
  destruct (Z.lor (Z.lor (Z.lor (Z.lor (Z.lor (u0 a) (u1 a)) (u2 a)) (u3 a)) (u4 a)) (u5 a) =? 0) eqn:E.
  - apply Z.eqb_eq in E. apply Z.lor_eq_0_iff in E as (E & E5). apply Z.lor_eq_0_iff in E as (E & E4). apply Z.lor_eq_0_iff in E as (E & E3). apply Z.lor_eq_0_iff in E as (E & E2).
    apply Z.lor_eq_0_iff in E as (E0 & E1). split; [exact Ha|]. unfold val6. rewrite E0, E1, E2, E3, E4, E5. rewrite !Z.mul_0_r. reflexivity.
  - assert (val6 a <> 0) as Hnz.
    { intros Hz. apply Z.eqb_neq in E. apply E. wfs6. unfold val6, word in *. rewrite Bval in *.
      assert (u0 a = 0) by lia. assert (u1 a = 0) by lia. assert (u2 a = 0) by lia. assert (u3 a = 0) by lia. assert (u4 a = 0) by lia. assert (u5 a = 0) by lia.
      repeat match goal with H : _ a = 0 |- _ => rewrite H end. reflexivity. }
    destruct (Z.eqb_spec (val6 a) 0) as [|_]; [contradiction|].
    wfs6.
    assert (E0 : w128 (u0 p - u0 a) = w128 (u0 p - (u0 a + shr 0 63))) by (rewrite shr63_0, Z.add_0_r; reflexivity).
    rewrite E0.
    destruct (halves_sub (u0 p) (u0 a) 0 0) as (r0 & h0 & k0 & -> & Hr0 & Hh0 & X0); auto.
    destruct (halves_sub (u1 p) (u1 a) k0 h0) as (r1 & h1 & k1 & -> & Hr1 & Hh1 & X1); auto.
    destruct (halves_sub (u2 p) (u2 a) k1 h1) as (r2 & h2 & k2 & -> & Hr2 & Hh2 & X2); auto.
    destruct (halves_sub (u3 p) (u3 a) k2 h2) as (r3 & h3 & k3 & -> & Hr3 & Hh3 & X3); auto.
    destruct (halves_sub (u4 p) (u4 a) k3 h3) as (r4 & h4 & k4 & -> & Hr4 & Hh4 & X4); auto.
    assert (Hs : shr h4 63 = k4) by (destruct Hh4 as [[-> ->]|[-> ->]]; [apply shr63_0|apply shr63_ones]).
    rewrite Hs.
    assert (E3 : wsub (wsub (u5 p) (u5 a)) k4 = u5 p - u5 a - k4).
    { rewrite !wsub_eq. pose proof Bpos. rewrite Zminus_mod_idemp_l. apply Z.mod_small.
      unfold val6, word in *. rewrite Bval in *. lia. }
    rewrite E3. unfold wf6, word, val6 in *; p6. rewrite Bval in *. lia.
Qed.

Lemma mul_wide6_spec a b : wf6 a -> wf6 b -> wf12 (mul_wide6 a b) /\ val12 (mul_wide6 a b) = val6 a * val6 b.
Proof.
  intros Ha Hb. wfs6. unfold mul_wide6. repeat hstep.
  split; [unfold wf12; p12; auto 30|].
  unfold val12, val6; p12.
  repeat match goal with H : word ?x |- _ => clear H end.
  helim. ring.
Qed.

Record mod_ok6 (p : limb6) (inv : Z) : Prop := {
  mo6_wf : wf6 p;
  mo6_inv : (u0 p * inv + 1) mod B = 0;
  mo6_half : 2 * val6 p < B^6;
  mo6_one : 1 < val6 p
}.
Lemma rhs_zero6 p0 inv l : (p0 * inv + 1) mod B = 0 -> word l -> exists t, wmul l inv * p0 + l = B * t.
Proof.
  intros Hinv Hl. rewrite wmul_eq. pose proof Bpos.
  exists ((((l * inv) mod B) * p0 + l) / B).
  assert (E : (((l * inv) mod B) * p0 + l) mod B = 0).
  { rewrite <- Z.add_mod_idemp_l by lia. rewrite Z.mul_mod_idemp_l by lia. rewrite Z.add_mod_idemp_l by lia.
    replace (l * inv * p0 + l) with (l * (p0 * inv + 1)) by ring.
    rewrite <- Z.mul_mod_idemp_r by lia. rewrite Hinv, Z.mul_0_r. apply Z.mod_0_l. lia. }
  pose proof (Z.div_mod (((l * inv) mod B) * p0 + l) B). lia.
Qed.
Lemma halves_rhs6 p0 inv l : (p0 * inv + 1) mod B = 0 -> word l -> word p0 ->
  exists h, halves (wmul l inv * p0 + l) = (0, h) /\ word h /\ B * h = wmul l inv * p0 + l.
Proof.
  intros Hm Hl Hp. destruct (rhs_zero6 p0 inv l Hm Hl) as (t & Ht).
  destruct (halves_spec (wmul l inv * p0 + l)) as (x & h & E & Hx & Hh & S).
  { replace (wmul l inv * p0 + l) with (0 + wmul l inv * p0 + l) by ring. apply mac_no_overflow; auto using word0, wmul_word. }
  assert (x = 0). { rewrite Ht in S. destruct (digit_inj x h 0 t) as [E1 _]; auto using word0. }
  subst x. exists h. split; [exact E|]. split; [exact Hh|]. lia.
Qed.
Ltac round6 inv Hinv :=
  match goal with |- context[wmul ?x inv] =>
    let d := fresh "d" in let E := fresh "E" in let W := fresh "W" in let m := fresh "m" in
    destruct (halves_rhs6 _ inv x Hinv) as (d & -> & ? & E); [assumption|assumption|];
    pose proof (wmul_word x inv) as W; set (m := wmul x inv) in *; clearbody m end.

Lemma mont6_end s A P r k M : 0 <= A -> A < P * B^6 -> 1 < P -> 2 * P < B^6 -> 0 <= M < B^6 -> 0 <= r < B^6 -> 0 <= k ->
  B^6 * (r + B^6 * k) = A + M * P -> s = (if r <? P then r else r - P) ->
  s < P /\ exists M', s * B^6 = A + M' * P.
Proof.
  intros HA HP H1 H2 HM Hr Hk E ->. assert (HB : 0 < B^6) by (apply Z.pow_pos_nonneg; [exact Bpos|discriminate]).
  generalize dependent (B^6). intros C HP H2 HM Hr E HB.
  assert (HV : r + C * k < 2 * P).
  { assert (M * P < C * P) by (apply Z.mul_lt_mono_pos_r; lia). apply (Z.mul_lt_mono_pos_l C); [lia|]. rewrite E. lia. }
  assert (k = 0) by nia. subst k. rewrite Z.mul_0_r, Z.add_0_r in *.
  destruct (Z.ltb_spec r P) as [L|L].
  - split; [exact L|]. exists M. lia.
  - split; [lia|]. exists (M - C). lia.
Qed.
Lemma mont6_spec a p inv : mod_ok6 p inv -> wf12 a -> val12 a < val6 p * B^6 ->
  wf6 (mont6 a p inv) /\ val6 (mont6 a p inv) < val6 p /\
  exists M, val6 (mont6 a p inv) * B^6 = val12 a + M * val6 p.
Proof.
  intros Hm Ha Hlt. pose proof (mo6_wf _ _ Hm) as Hp. pose proof (val6_range p Hp) as Rp.
  destruct (mo6_wf _ _ Hm) as (P0 & P1 & P2 & P3 & P4 & P5). pose proof (mo6_inv _ _ Hm) as Hinv.
  destruct a as [a0 a1 a2 a3 a4 a5 a6 a7 a8 a9 a10 a11]; unfold mont6; p12.
  assert (Hpos : 0 <= val12 (M12 a0 a1 a2 a3 a4 a5 a6 a7 a8 a9 a10 a11)) by (apply val12_nonneg, Ha).
  destruct Ha as (? & ? & ? & ? & ? & ? & ? & ? & ? & ? & ? & ?). cbn [t0 t1 t2 t3 t4 t5 t6 t7 t8 t9 t10 t11] in *.
  round6 inv Hinv. hstep. hstep. hstep. hstep. hstep. hstep.
  round6 inv Hinv. hstep. hstep. hstep. hstep. hstep. hstep.
  round6 inv Hinv. hstep. hstep. hstep. hstep. hstep. hstep.
  round6 inv Hinv. hstep. hstep. hstep. hstep. hstep. hstep.
  round6 inv Hinv. hstep. hstep. hstep. hstep. hstep. hstep.
  round6 inv Hinv. hstep. hstep. hstep. hstep. hstep.
  match goal with |- context[wadd (wadd ?x ?y) ?z] =>
    destruct (wadd_spec x y z) as (k & Hk & Ek); auto;
    pose proof (wadd_word (wadd x y) z) as W7;
    set (top := wadd (wadd x y) z) in *; clearbody top end.
  match goal with |- wf6 (sub6 ?l p p) /\ _ => set (r := l) end.
  assert (Hr : wf6 r) by (unfold wf6, r; p6; auto 10).
  assert (EQ : B^6 * (val6 r + B^6 * k) = val12 (M12 a0 a1 a2 a3 a4 a5 a6 a7 a8 a9 a10 a11) + (m + B * m0 + B^2 * m1 + B^3 * m2 + B^4 * m3 + B^5 * m4) * val6 p).
  { unfold r, val12, val6; p6; p12.
    repeat match goal with H : word ?x |- _ => clear H end. clear Hlt Rp Hm Hpos Hk Hr r Hinv.
    repeat match goal with
    | E : ?x + B * ?h = ?old + ?m * ?q + ?d |- _ => is_var old; assert (old = x + B * h - m * q - d) by (clear - E; lia); clear E; subst old
    | E : B * ?h = ?m * ?q + ?old |- _ => is_var old; assert (old = B * h - m * q) by (clear - E; lia); clear E; subst old
    | E : ?x + B * ?h = ?old + ?e + ?d |- _ => is_var old; assert (old = x + B * h - e - d) by (clear - E; lia); clear E; subst old
    | E : ?x + B * ?h = ?old + ?d |- _ => is_var old; assert (old = x + B * h - d) by (clear - E; lia); clear E; subst old
    end.
    ring. }
  set (M := m + B * m0 + B^2 * m1 + B^3 * m2 + B^4 * m3 + B^5 * m4) in *.
  assert (HM : 0 <= M < B^6).
  { unfold M, word in *. clear - W W0 W1 W2 W3 W4. rewrite Bval in *. lia. }
  clearbody M. pose proof (val6_range r Hr) as Rr. pose proof (mo6_half _ _ Hm) as Hhalf. pose proof (mo6_one _ _ Hm) as Hone.
  destruct (sub_p6 r p Hr Hp) as [Hw Ec]. split; [exact Hw|].
  apply (mont6_end _ _ (val6 p) (val6 r) k M); assumption.
Qed.

Lemma mul6_spec a b p inv : mod_ok6 p inv -> wf6 a -> wf6 b -> val6 a * val6 b < val6 p * B^6 ->
  wf6 (mul6 a b p inv) /\ val6 (mul6 a b p inv) < val6 p /\
  exists M, val6 (mul6 a b p inv) * B^6 = val6 a * val6 b + M * val6 p.
Proof.
  intros Hm Ha Hb Hlt. unfold mul6. destruct (mul_wide6_spec a b Ha Hb) as [Hw E].
  rewrite <- E in *. apply mont6_spec; assumption.
Qed.
