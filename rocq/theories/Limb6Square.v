(** The six-limb squaring: what it computes, including the carries it loses. *)
From Coq Require Import ZArith List Bool Lia Znumtheory.
From Verif Require Import LimbModel LimbProofs MontProofs FieldSpec Limb6Model Limb6Spec Limb6Proofs.
Import ListNotations.
Local Open Scope Z_scope.

Lemma wadd_split x y : word x -> word y -> exists k, wadd x y + B * k = x + y /\ word (wadd x y) /\ k = (if B <=? x + y then 1 else 0).
Proof.
  intros Hx Hy. exists ((x + y) / B). rewrite wadd_eq. pose proof Bpos. split; [pose proof (Z.div_mod (x + y) B); lia|].
  split; [apply Z.mod_pos_bound; lia|]. unfold word in *. destruct (Z.leb_spec B (x + y)).
  - symmetry. apply (Z.div_unique_pos _ _ _ (x + y - B)); lia.
  - apply Z.div_small. lia.
Qed.

(** Digits below the top one do not decide whether a sum overflows. *)
Lemma top_digit C low x : 0 < C -> 0 <= low < C -> (C * B <=? low + C * x) = (B <=? x).
Proof.
  intros HC HL. pose proof Bpos. destruct (Z.leb_spec B x) as [L|L].
  - apply Z.leb_le. assert (C * B <= C * x) by (apply Z.mul_le_mono_nonneg_l; lia). lia.
  - apply Z.leb_gt. assert (C * (x + 1) <= C * B) by (apply Z.mul_le_mono_nonneg_l; lia). lia.
Qed.
Lemma mod_digits C low x : 0 <= low < C -> (low + C * x) mod C = low.
Proof. intros H. rewrite Z.mul_comm, Z.mod_add by lia. apply Z.mod_small. exact H. Qed.

Definition crossB_s (a : limb6) : Z :=
  u0 a * u1 a + B * (u0 a * u2 a) + B^2 * (u0 a * u3 a) + B^3 * (u0 a * u4 a) + B^4 * (u0 a * u5 a)
  + B^5 * (u1 a * u5 a) + B^6 * (u2 a * u5 a) + B^7 * (u3 a * u5 a) + B^8 * (u4 a * u5 a).
Definition crossB_t (a : limb6) : Z :=
  B^2 * (u1 a * u2 a) + B^3 * (u1 a * u3 a) + B^4 * (u1 a * u4 a) + B^5 * (u2 a * u4 a) + B^6 * (u3 a * u4 a).
Lemma cross6_B a : cross6_s a = crossB_s a /\ cross6_t a = crossB_t a.
Proof.
  unfold cross6_s, cross6_t, crossB_s, crossB_t. rewrite Bval.
  change (2 ^ 512) with (18446744073709551616 ^ 8). change (2 ^ 448) with (18446744073709551616 ^ 7). change (2 ^ 384) with (18446744073709551616 ^ 6).
  change (2 ^ 320) with (18446744073709551616 ^ 5). change (2 ^ 256) with (18446744073709551616 ^ 4). change (2 ^ 192) with (18446744073709551616 ^ 3).
  change (2 ^ 128) with (18446744073709551616 ^ 2). change (2 ^ 64) with 18446744073709551616. split; reflexivity.
Qed.
Lemma drops_high_B a : drops_high a = (B^8 * B <=? crossB_s a mod (B^8 * B) + crossB_t a).
Proof. unfold drops_high. destruct (cross6_B a) as [-> ->]. replace (2 ^ 576) with (B^8 * B) by (rewrite Bval; reflexivity). reflexivity. Qed.
Lemma drops_low_B a : drops_low a = (B^6 * B <=? (crossB_s a + crossB_t a) mod (B^6 * B) + B^4 * (u2 a * u3 a)).
Proof.
  unfold drops_low. destruct (cross6_B a) as [-> ->]. replace (2 ^ 448) with (B^6 * B) by (rewrite Bval; reflexivity).
  replace (2 ^ 256) with (B^4) by (rewrite Bval; reflexivity). reflexivity.
Qed.

Lemma low6 x1 x2 x3 x4 x5 x6 : word x1 -> word x2 -> word x3 -> word x4 -> word x5 -> word x6 ->
  0 <= x1 + B * x2 + B^2 * x3 + B^3 * x4 + B^4 * x5 + B^5 * x6 < B^6.
Proof. unfold word. rewrite Bval. lia. Qed.
Lemma low8 x1 x2 x3 x4 x5 x6 x7 x8 : word x1 -> word x2 -> word x3 -> word x4 -> word x5 -> word x6 -> word x7 -> word x8 ->
  0 <= x1 + B * x2 + B^2 * x3 + B^3 * x4 + B^4 * x5 + B^5 * x6 + B^6 * x7 + B^7 * x8 < B^8.
Proof. unfold word. rewrite Bval. lia. Qed.
Lemma low7 x1 x2 x3 x4 x5 x6 x7 : word x1 -> word x2 -> word x3 -> word x4 -> word x5 -> word x6 -> word x7 ->
  0 <= x1 + B * x2 + B^2 * x3 + B^3 * x4 + B^4 * x5 + B^5 * x6 + B^6 * x7 < B^6 * B.
Proof. unfold word. rewrite Bval. lia. Qed.
Lemma low9 x1 x2 x3 x4 x5 x6 x7 x8 x9 : word x1 -> word x2 -> word x3 -> word x4 -> word x5 -> word x6 -> word x7 -> word x8 -> word x9 ->
  0 <= x1 + B * x2 + B^2 * x3 + B^3 * x4 + B^4 * x5 + B^5 * x6 + B^6 * x7 + B^7 * x8 + B^8 * x9 < B^8 * B.
Proof. unfold word. rewrite Bval. lia. Qed.

Lemma square_wide6_spec a : wf6 a -> wf12 (square_wide6 a) /\
  val12 (square_wide6 a) = val6 a * val6 a - (if drops_high a then 2 * B^10 else 0) - (if drops_low a then 2 * B^8 else 0).
Proof.
  intros Ha. pose proof (val6_range a Ha) as Ra. destruct Ha as (A0 & A1 & A2 & A3 & A4 & A5). unfold square_wide6.
  destruct (halves_spec (u1 a * u0 a)) as (l1 & c1 & -> & L1 & C1 & E1);
    [replace (u1 a * u0 a) with (0 + u1 a * u0 a + 0) by ring; apply mac_no_overflow; auto using word0|].
  destruct (halves_spec (u2 a * u0 a + c1)) as (l2 & c2 & -> & L2 & C2 & E2); [change (u2 a * u0 a) with (0 + u2 a * u0 a); apply mac_no_overflow; auto using word0|].
  destruct (halves_spec (u3 a * u0 a + c2)) as (l3 & c3 & -> & L3 & C3 & E3); [change (u3 a * u0 a) with (0 + u3 a * u0 a); apply mac_no_overflow; auto using word0|].
  destruct (halves_spec (u4 a * u0 a + c3)) as (l4 & c4 & -> & L4' & C4 & E4); [change (u4 a * u0 a) with (0 + u4 a * u0 a); apply mac_no_overflow; auto using word0|].
  destruct (halves_spec (u5 a * u0 a + c4)) as (l5 & c5 & -> & L5 & C5 & E5); [change (u5 a * u0 a) with (0 + u5 a * u0 a); apply mac_no_overflow; auto using word0|].
  destruct (halves_spec (u1 a * u5 a + c5)) as (l6 & c6 & -> & L6 & C6 & E6); [change (u1 a * u5 a) with (0 + u1 a * u5 a); apply mac_no_overflow; auto using word0|].
  destruct (halves_spec (u2 a * u5 a + c6)) as (l7 & c7 & -> & L7 & C7 & E7); [change (u2 a * u5 a) with (0 + u2 a * u5 a); apply mac_no_overflow; auto using word0|].
  destruct (halves_spec (u3 a * u5 a + c7)) as (l8 & c8 & -> & L8' & C8 & E8); [change (u3 a * u5 a) with (0 + u3 a * u5 a); apply mac_no_overflow; auto using word0|].
  destruct (halves_spec (u4 a * u5 a + c8)) as (l9 & l10 & -> & L9 & L10 & E9); [change (u4 a * u5 a) with (0 + u4 a * u5 a); apply mac_no_overflow; auto using word0|].
  destruct (halves_spec (u1 a * u2 a + l3)) as (m3 & d3 & -> & M3 & D3 & F3); [change (u1 a * u2 a) with (0 + u1 a * u2 a); apply mac_no_overflow; auto using word0|].
  destruct (halves_spec (l4 + u1 a * u3 a + d3)) as (m4 & d4 & -> & M4 & D4 & F4); [apply mac_no_overflow; assumption|].
  destruct (halves_spec (l5 + u1 a * u4 a + d4)) as (m5 & d5 & -> & M5 & D5 & F5); [apply mac_no_overflow; assumption|].
  destruct (halves_spec (l6 + u2 a * u4 a + d5)) as (m6 & d6 & -> & M6' & D6 & F6); [apply mac_no_overflow; assumption|].
  destruct (halves_spec (l7 + u3 a * u4 a + d6)) as (m7 & d7 & -> & M7 & D7 & F7); [apply mac_no_overflow; assumption|].
  destruct (halves_spec (l8 + d7)) as (m8 & d8 & -> & M8 & D8 & F8); [clear - L8' D7; unfold word in *; rewrite Bval in *; lia|].
  destruct (wadd_split l9 d8 L9 D8) as (kh & F9 & M9 & Kh). set (m9 := wadd l9 d8) in *. 
  destruct (halves_spec (u2 a * u3 a + m5)) as (n5 & f5 & -> & N5 & G5 & H5); [change (u2 a * u3 a) with (0 + u2 a * u3 a); apply mac_no_overflow; auto using word0|].
  destruct (halves_spec (m6 + f5)) as (n6 & f6 & -> & N6 & G6 & H6); [clear - M6' G5; unfold word in *; rewrite Bval in *; lia|].
  destruct (wadd_split m7 f6 M7 G6) as (kl & H7 & N7 & Kl). set (n7 := wadd m7 f6) in *.
  (* which carries were lost *)
  assert (ES : crossB_s a = (l1 + B * l2 + B^2 * l3 + B^3 * l4 + B^4 * l5 + B^5 * l6 + B^6 * l7 + B^7 * l8 + B^8 * l9) + B^8 * B * l10).
  { unfold crossB_s. clear - E1 E2 E3 E4 E5 E6 E7 E8 E9.
    replace (u0 a * u1 a) with (l1 + B * c1) by (clear - E1; lia). replace (u0 a * u2 a) with (l2 + B * c2 - c1) by (clear - E2; lia).
    replace (u0 a * u3 a) with (l3 + B * c3 - c2) by (clear - E3; lia). replace (u0 a * u4 a) with (l4 + B * c4 - c3) by (clear - E4; lia).
    replace (u0 a * u5 a) with (l5 + B * c5 - c4) by (clear - E5; lia). replace (u1 a * u5 a) with (l6 + B * c6 - c5) by (clear - E6; lia).
    replace (u2 a * u5 a) with (l7 + B * c7 - c6) by (clear - E7; lia). replace (u3 a * u5 a) with (l8 + B * c8 - c7) by (clear - E8; lia).
    replace (u4 a * u5 a) with (l9 + B * l10 - c8) by (clear - E9; lia). ring. }
  assert (ET : (l1 + B * l2 + B^2 * l3 + B^3 * l4 + B^4 * l5 + B^5 * l6 + B^6 * l7 + B^7 * l8 + B^8 * l9) + crossB_t a
     = (l1 + B * l2 + B^2 * m3 + B^3 * m4 + B^4 * m5 + B^5 * m6 + B^6 * m7 + B^7 * m8) + B^8 * (l9 + d8)).
  { unfold crossB_t. clear - F3 F4 F5 F6 F7 F8.
    replace (u1 a * u2 a) with (m3 + B * d3 - l3) by (clear - F3; lia). replace (u1 a * u3 a) with (m4 + B * d4 - l4 - d3) by (clear - F4; lia).
    replace (u1 a * u4 a) with (m5 + B * d5 - l5 - d4) by (clear - F5; lia). replace (u2 a * u4 a) with (m6 + B * d6 - l6 - d5) by (clear - F6; lia).
    replace (u3 a * u4 a) with (m7 + B * d7 - l7 - d6) by (clear - F7; lia). replace m8 with (l8 + d7 - B * d8) by (clear - F8; lia). ring. }
  assert (Dh : drops_high a = (B <=? l9 + d8)).
  { rewrite drops_high_B, ES, mod_digits, ET by (apply low9; assumption). apply top_digit; [rewrite Bval; reflexivity|]. apply low8; assumption. }
  assert (Dl : drops_low a = (B <=? m7 + f6)).
  { rewrite drops_low_B, ES.
    replace (l1 + B * l2 + B ^ 2 * l3 + B ^ 3 * l4 + B ^ 4 * l5 + B ^ 5 * l6 + B ^ 6 * l7 + B ^ 7 * l8 + B ^ 8 * l9 + B ^ 8 * B * l10 + crossB_t a)
      with ((l1 + B * l2 + B^2 * m3 + B^3 * m4 + B^4 * m5 + B^5 * m6 + B^6 * m7) + B^6 * B * (m8 + B * (l9 + d8) + B^2 * l10)) by (symmetry; rewrite <- Z.add_assoc, (Z.add_comm (B ^ 8 * B * l10)), Z.add_assoc, ET; ring).
    rewrite mod_digits by (apply low7; assumption).
    replace (l1 + B * l2 + B ^ 2 * m3 + B ^ 3 * m4 + B ^ 4 * m5 + B ^ 5 * m6 + B ^ 6 * m7 + B ^ 4 * (u2 a * u3 a))
      with ((l1 + B * l2 + B^2 * m3 + B^3 * m4 + B^4 * n5 + B^5 * n6) + B^6 * (m7 + f6)).
    - apply top_digit; [rewrite Bval; reflexivity|]. apply low6; assumption.
    - replace (u2 a * u3 a) with (n5 + B * f5 - m5) by (clear - H5; lia). replace n6 with (m6 + f5 - B * f6) by (clear - H6; lia). ring. }
  rewrite <- Dh in Kh. rewrite <- Dl in Kl. clear ES ET Dh Dl. clearbody m9 n7.
  assert (EK : (if drops_high a then 2 * B^10 else 0) + (if drops_low a then 2 * B^8 else 0) = 2 * B^10 * kh + 2 * B^8 * kl)
    by (clear - Kh Kl; destruct (drops_high a), (drops_low a); subst; ring).
  replace (val6 a * val6 a - (if drops_high a then 2 * B^10 else 0) - (if drops_low a then 2 * B^8 else 0)) with (val6 a * val6 a - 2 * B^10 * kh - 2 * B^8 * kl) by (clear - EK; lia).
  assert (K0 : 0 <= kh /\ 0 <= kl) by (clear - Kh Kl; destruct (drops_high a), (drops_low a); lia).
  clear EK Kh Kl.
  (* doubling *)
  pose proof (shr_word l10 L10) as W11.
  repeat match goal with
  | |- context[Z.lor (shl1 ?x) (shr ?y 63)] =>
      let E := fresh "S" in let z := fresh "z" in
      pose proof (lor_eq x y ltac:(assumption) ltac:(assumption)) as E;
      pose proof (lor_word x y ltac:(assumption) ltac:(assumption));
      set (z := Z.lor (shl1 x) (shr y 63)) in *; clearbody z
  | |- context[shl1 ?x] =>
      let E := fresh "S" in let z := fresh "z" in
      pose proof (shl1_eq x ltac:(assumption)) as E;
      pose proof (shl1_word x);
      set (z := shl1 x) in *; clearbody z
  end.
  hstep. hstep. hstep. hstep. hstep. hstep. hstep. hstep. hstep. hstep. hstep.
  match goal with |- context[wadd ?x ?y] => destruct (wadd_split x y) as (j & Ej & Wt & Kj); [assumption|assumption|]; set (top := wadd x y) in *; clearbody top end.
  match goal with |- wf12 ?r /\ _ => set (res := r) end.
  assert (Hres : wf12 res) by (unfold wf12, res; p12; auto 30).
  split; [exact Hres|].
  assert (J0 : 0 <= j) by (clear - Kj; destruct (B <=? _); lia).
  assert (Eres : val12 res + B^12 * j = val6 a * val6 a - 2 * B^10 * kh - 2 * B^8 * kl).
  { clear Hres Kj J0 K0 Ra. unfold res, val12, val6; p12. clear res.
    repeat match goal with H : word ?x |- _ => clear H end.
    repeat match goal with S : ?z = 2 * _ - _ + _ |- _ => subst z | S : ?z = 2 * _ - _ |- _ => subst z end.
    repeat match goal with E : ?l + B * ?h = ?r |- _ => is_var l; assert (l = r - B * h) by (clear - E; lia); clear E; subst l end.
    ring. }
  pose proof (val12_nonneg res Hres) as P12. clear - Eres P12 Ra K0 J0.
  assert (S12 : val6 a * val6 a < B^12) by (replace (B^12) with (B^6 * B^6) by ring; apply Z.mul_lt_mono_nonneg; lia).
  assert (0 < B^10 /\ 0 < B^8 /\ 0 < B^12) as (X1 & X2 & X3) by (pose proof Bpos; repeat split; apply Z.pow_pos_nonneg; lia).
  generalize dependent (val12 res). generalize dependent (val6 a * val6 a). revert X1 X2 X3. generalize (B^10) (B^8) (B^12). intros x y z Hx Hy Hz s Hs v Ev Hv.
  assert (j = 0) by nia. subst j. lia.
Qed.
