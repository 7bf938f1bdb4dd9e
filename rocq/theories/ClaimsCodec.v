(** C25, C50: byte encodings. *)
From Coq Require Import ZArith List Bool Lia.
From Verif Require Import LimbModel FieldModel FieldSpec LimbProofs MontProofs FieldProofs DigitProofs FieldMore ClaimsField CodecModel CodecSpec CodecProofs.
Import ListNotations.
Local Open Scope Z_scope.

(** ** C50 *)
(** The derived codec of every type is exact: decoding inverts encoding, whatever follows, and accepts nothing else.
    The values of a field are all vectors of four words. *)
Theorem C50_field_codec : exact_codec c_field limbs_ok.
Proof. exact x_field. Qed.
Theorem C50_extension_codecs : exact_codec (c_ext2 c_field) (both limbs_ok limbs_ok) /\
  exact_codec (c_ext3 (c_ext2 c_field)) (projective_val (both limbs_ok limbs_ok)) /\
  exact_codec (c_ext2 (c_ext3 (c_ext2 c_field))) (both (projective_val (both limbs_ok limbs_ok)) (projective_val (both limbs_ok limbs_ok))).
Proof.
  pose proof (x_pair _ _ _ _ x_field x_field) as X2. pose proof (x_projective _ _ X2) as X6.
  split; [exact X2|]. split; [exact X6|exact (x_pair _ _ _ _ X6 X6)].
Qed.
Theorem C50_point_codecs : exact_codec (c_affine c_field) (affine_val limbs_ok) /\ exact_codec (c_projective c_field) (projective_val limbs_ok) /\
  exact_codec (c_affine (c_ext2 c_field)) (affine_val (both limbs_ok limbs_ok)) /\ exact_codec (c_projective (c_ext2 c_field)) (projective_val (both limbs_ok limbs_ok)) /\
  exact_codec c_prepared (both (vec_of (projective_val (both limbs_ok limbs_ok))) any).
Proof.
  pose proof (x_pair _ _ _ _ x_field x_field) as X2.
  split; [exact (x_affine _ _ x_field)|]. split; [exact (x_projective _ _ x_field)|]. split; [exact (x_affine _ _ X2)|]. split; [exact (x_projective _ _ X2)|].
  exact (x_pair _ _ _ _ (x_vec _ _ (x_projective _ _ X2)) x_bool).
Qed.
Theorem C50_system_codecs : exact_codec c_wire wire_val /\ exact_codec c_row row_val /\ exact_codec c_matrix matrix_val /\ exact_codec c_dense dense_val /\ exact_codec c_shape shape_val.
Proof. split; [exact x_wire|]. split; [exact x_row|]. split; [exact x_matrix|]. split; [exact x_dense|exact x_shape]. Qed.
Theorem C50_proof_codec : exact_codec c_proof proof_val. Proof. exact x_proof. Qed.
Theorem C50_params_codec : exact_codec c_params params_val. Proof. exact x_params. Qed.
(** So no two values share an encoding, and no encoding is the beginning of another. *)
Theorem C50_unambiguous A (c : codec A) dom a b r s : exact_codec c dom -> dom a -> dom b -> enc c a ++ r = enc c b ++ s -> a = b /\ r = s.
Proof.
  intros X Da Db E. pose proof (x_round _ _ X a r Da) as R. rewrite E, (x_round _ _ X b s Db) in R. injection R as <- <-. split; reflexivity.
Qed.
(** The encoding of a field element is its Montgomery limbs, not its canonical integer. *)
Theorem C50_field_bytes P m a x : bn_field P m -> represents m a x ->
  length (enc c_field a) = 32%nat /\ le_value (enc c_field a) = (x * 2 ^ 256) mod m.
Proof.
  intros F (W & _ & V). rewrite <- V. split.
  - destruct a as [a b c d]. cbn [enc c_field c_iso c_pair w0 w1 w2 w3]. cbn [enc c_u64]. rewrite !app_length, !le_enc_length. reflexivity.
  - destruct a as [a b c d]. destruct W as (A & B & C & D). cbn [w0 w1 w2 w3] in *. unfold limb_ok in *. cbn [enc c_field c_iso c_pair w0 w1 w2 w3]. cbn [enc c_u64].
    rewrite lev_le, !lev_app, !le_enc_length. change (256 ^ Z.of_nat 8) with (2 ^ 64).
    assert (L : forall v, 0 <= v < 2 ^ 64 -> lev 256 (le_enc 8 v) = v) by (intros v Hv; apply (le_enc_value 8 v); exact Hv).
    rewrite !L by assumption. unfold limb_value. cbn [w0 w1 w2 w3]. ring.
Qed.
Lemma words v : 0 <= v < 2 ^ 256 -> exists b, limbs_ok b /\ limb_value b = v.
Proof.
  intros H. exists (L4 (v mod 2 ^ 64) ((v / 2 ^ 64) mod 2 ^ 64) ((v / 2 ^ 64 / 2 ^ 64) mod 2 ^ 64) (v / 2 ^ 64 / 2 ^ 64 / 2 ^ 64)).
  assert (D1 := Z.div_mod v (2 ^ 64) ltac:(lia)). assert (D2 := Z.div_mod (v / 2 ^ 64) (2 ^ 64) ltac:(lia)). assert (D3 := Z.div_mod (v / 2 ^ 64 / 2 ^ 64) (2 ^ 64) ltac:(lia)).
  assert (R1 := Z.mod_pos_bound v (2 ^ 64) ltac:(lia)). assert (R2 := Z.mod_pos_bound (v / 2 ^ 64) (2 ^ 64) ltac:(lia)). assert (R3 := Z.mod_pos_bound (v / 2 ^ 64 / 2 ^ 64) (2 ^ 64) ltac:(lia)).
  split; [|unfold limb_value; cbn [w0 w1 w2 w3]; lia]. unfold limbs_ok, limb_ok. cbn [w0 w1 w2 w3]. split; [exact R1|]. split; [exact R2|]. split; [exact R3|]. lia.
Qed.
(** Decoding does not reject what is not reduced: every element has another encoding, which decodes to a value that
    stands for the same residue and compares as different. *)
Theorem C50_canonical_refuted P m a : bn_field P m -> reduced m a ->
  exists b, b <> a /\ ~ reduced m b /\ limb_value b mod m = limb_value a mod m /\ feqb a b = false /\
    (forall rest, dec c_field (enc c_field b ++ rest) = Some (b, rest)).
Proof.
  intros F [W L]. pose proof (bn_gt P m F) as G. assert (V0 : 0 <= limb_value a) by (destruct W as (A & B & C & D); unfold limb_ok in *; unfold limb_value; lia).
  destruct (words (limb_value a + m)) as (b & Wb & Vb); [assert (2 ^ 254 + 2 ^ 254 < 2 ^ 256) by reflexivity; lia|].
  assert (N : b <> a) by (intros ->; lia). exists b. split; [exact N|]. split; [intros [_ X]; lia|].
  split; [rewrite Vb, <- (Z.mul_1_l m) at 1; apply Z.mod_add; lia|].
  split; [destruct (feqb a b) eqn:E; [|reflexivity]; apply eqb4_eq in E; congruence|]. intros rest. apply x_field, Wb.
Qed.
(** The encoding of the modulus decodes to a value that is not zero for [is_zero] and [==], and whose product with
    every element is zero. *)
Theorem C50_decoded_zero_divisor P m : bn_field P m -> exists b, dec c_field (enc c_field b) = Some (b, []) /\ limb_value b = m /\
  fis_zero b = false /\ feqb b fzero = false /\ forall a, reduced m a -> fmul P b a = fzero.
Proof.
  intros F. pose proof (bn_gt P m F) as G. pose proof (bn_ok P m F) as OK. exists (fmod P). pose proof (p_wf P m OK) as W. pose proof (m_val P m OK) as V.
  assert (N : eqb4 (fmod P) fzero = false). { destruct (eqb4 (fmod P) fzero) eqn:E; [|reflexivity]. apply eqb4_eq in E. rewrite E in V. change (val fzero) with 0 in V. lia. }
  split; [rewrite <- (app_nil_r (enc _ _)); apply x_field, limbs_ok_wf, W|]. split; [rewrite limb_value_val; exact V|]. split; [exact N|]. split; [exact N|].
  intros a [Wa La]. apply limbs_ok_wf in Wa. rewrite limb_value_val in La. destruct (mul_mod P m OK (fmod P) a W Wa) as (W' & R & E).
  { rewrite V. apply Z.mul_lt_mono_pos_l; [lia|]. pose proof (m_half P m OK). lia. }
  rewrite V, (Z.mul_comm m), Z.mod_mul in E by lia. assert (E0 : (val (fmul P (fmod P) a) * B ^ 4) mod m = (0 * B ^ 4) mod m) by (etransitivity; [exact E|]; rewrite Z.mul_0_l, Z.mod_0_l by lia; reflexivity).
  apply (cancel_B4 P m OK) in E0. rewrite Z.mod_0_l, Z.mod_small in E0 by lia. apply val_inj; [exact W'|apply (rep_wf m _ 0), (rep_zero P m OK)|]. rewrite E0. reflexivity.
Qed.
Example C50_example : enc c_wire (inr 300) = [1; 177; 4] /\ dec c_wire [1; 177; 4; 9] = Some (inr 300, [9]) /\ dec c_wire [1; 1; 0] = None /\
  enc c_dense [] = [0] /\ dense_val [L4 1 2 3 (2 ^ 64 - 1)] /\ dec c_dense (enc c_dense [L4 1 2 3 (2 ^ 64 - 1)]) = Some ([L4 1 2 3 (2 ^ 64 - 1)], []) /\
  proof_val (5, ([], ([], ([], ([], (((((L4 0 0 0 0, (L4 0 0 0 0, true)), []), []), ((((L4 0 0 0 0, (L4 0 0 0 0, true)), ((L4 0 0 0 0, (L4 0 0 0 0, true)), (L4 0 0 0 0, []))), ([], [])),
    (((L4 0 0 0 0, (L4 0 0 0 0, true)), ((L4 0 0 0 0, (L4 0 0 0 0, true)), (L4 0 0 0 0, []))), ([], [])))), tt)))))).
Proof.
  do 4 (split; [vm_compute; reflexivity|]). split.
  { split; [cbn; lia|]. constructor; [|constructor]. unfold limbs_ok, limb_ok. cbn [w0 w1 w2 w3]. lia. }
  split; [vm_compute; reflexivity|].
  unfold proof_val, dense_val, vec_of, instance_val, relaxed_instance_val, relaxed_witness_val, point_val, affine_val, both, any, u64_val, limbs_ok, limb_ok. cbn [fst snd w0 w1 w2 w3 length Z.of_nat].
  repeat match goal with |- _ /\ _ => split | |- Forall _ [] => constructor | |- True => exact I end; try lia; (split; [cbn; lia|constructor]).
Qed.

(** ** C25 *)
Lemma chunks8_nth : forall fuel bs i, (length bs <= fuel)%nat -> nth_error (chunks8 fuel bs) i = if (8 * i + 8 <=? length bs)%nat then Some (firstn 8 (skipn (8 * i) bs)) else None.
Proof.
  induction fuel as [|f IH]; intros bs i H; cbn [chunks8].
  - destruct i; cbn [nth_error]; destruct (Nat.leb_spec (8 * S i + 8) (length bs)) || destruct (Nat.leb_spec (8 * 0 + 8) (length bs)); try lia; reflexivity.
  - destruct (Nat.leb_spec 8 (length bs)) as [L|L].
    + destruct i as [|i]; cbn [nth_error].
      * destruct (Nat.leb_spec (8 * 0 + 8) (length bs)); [reflexivity|lia].
      * rewrite IH by (rewrite skipn_length; lia). rewrite skipn_length. destruct (Nat.leb_spec (8 * i + 8) (length bs - 8)); destruct (Nat.leb_spec (8 * S i + 8) (length bs)); try lia; [|reflexivity].
        replace (8 * S i)%nat with (8 * i + 8)%nat by lia. apply f_equal. apply f_equal. clear.
        assert (E : forall n m (l : list Z), skipn n (skipn m l) = skipn (n + m) l).
        { intros n m. induction m as [|m IHm]; intros l; [rewrite Nat.add_0_r; reflexivity|]. destruct l; [rewrite !skipn_nil; reflexivity|]. rewrite <- plus_n_Sm. cbn [skipn]. apply IHm. }
        apply E.
    + destruct i; cbn [nth_error]; destruct (Nat.leb_spec (8 * S i + 8) (length bs)) || destruct (Nat.leb_spec (8 * 0 + 8) (length bs)); try lia; reflexivity.
Qed.
Lemma from_slice_long bs : (64 <= length bs)%nat -> from_slice_unchecked bs =
  (L4 (slice8 bs 0) (slice8 bs 8) (slice8 bs 16) (slice8 bs 24), (L4 (slice8 bs 32) (slice8 bs 40) (slice8 bs 48) (slice8 bs 56), if (97 <=? length bs)%nat then nth 96 bs 0 =? 1 else false)).
Proof.
  intros L. unfold from_slice_unchecked. cbv zeta. rewrite !chunks8_nth by lia.
  repeat match goal with |- context [(8 * ?i + 8 <=? length bs)%nat] => destruct (Nat.leb_spec (8 * i + 8) (length bs)); [|lia] end. reflexivity.
Qed.
(** Encoding and decoding again gives the same point, whatever its limbs; the encoding is 97 bytes. *)
Theorem C25_raw_round_trip p : point_val p -> from_slice_unchecked (to_raw_bytes p) = p /\ length (to_raw_bytes p) = 97%nat /\ Forall is_byte (to_raw_bytes p).
Proof.
  destruct p as [x [y inf]]. intros [Wx [Wy _]]. cbn [fst snd] in *.
  assert (LEN : length (to_raw_bytes (x, (y, inf))) = 97%nat) by (unfold to_raw_bytes, limbs; cbn [app flat_map]; rewrite !app_length, !le_enc_length; reflexivity).
  split; [|split; [exact LEN|]].
  - rewrite from_slice_long by lia. rewrite LEN. destruct x as [a b c d], y as [e f g h]. destruct Wx as (A & B & C & D), Wy as (E & F & G & H). cbn [w0 w1 w2 w3] in *.
    assert (EV : forall v, limb_ok v -> le_word (le_enc 8 v) = v) by (intros v Hv; apply le_enc_value; exact Hv).
    assert (FL : (if (97 <=? 97)%nat then nth 96 (to_raw_bytes (L4 a b c d, (L4 e f g h, inf))) 0 =? 1 else false) = inf) by (destruct inf; reflexivity).
    rewrite FL. clear FL. transitivity (L4 (le_word (le_enc 8 a)) (le_word (le_enc 8 b)) (le_word (le_enc 8 c)) (le_word (le_enc 8 d)),
      (L4 (le_word (le_enc 8 e)) (le_word (le_enc 8 f)) (le_word (le_enc 8 g)) (le_word (le_enc 8 h)), inf)); [reflexivity|]. rewrite !EV by assumption. reflexivity.
  - unfold to_raw_bytes. apply Forall_app. split; [apply Forall_flat_map, Forall_forall; intros v _; apply le_enc_bytes|].
    apply Forall_app. split; [apply Forall_forall; intros v Hv; apply repeat_spec in Hv; subst; unfold is_byte; lia|]. constructor; [unfold is_byte; destruct inf; lia|constructor].
Qed.
(** Every string of 64 bytes or more is decoded: the first 32 bytes are the limbs of [x], the next those of [y]; the
    point is marked infinite exactly when there is a byte 96 and it is 1. *)
Theorem C25_raw_decodes_everything bs : Forall is_byte bs -> (64 <= length bs)%nat ->
  exists x y inf, from_slice_unchecked bs = (x, (y, inf)) /\ limbs_ok x /\ limbs_ok y /\
    limb_value x = le_value (firstn 32 bs) /\ limb_value y = le_value (firstn 32 (skipn 32 bs)) /\ (inf = true <-> nth_error bs 96 = Some 1).
Proof.
  intros HB L. rewrite Forall_forall in HB. do 3 eexists. split; [apply from_slice_long, L|].
  assert (SW : forall i, limb_ok (slice8 bs i)) by (intros i; pose proof (slice8_word bs i HB) as X; unfold word in X; rewrite Bval in X; exact X).
  split; [unfold limbs_ok; cbn [w0 w1 w2 w3]; auto|]. split; [unfold limbs_ok; cbn [w0 w1 w2 w3]; auto|]. split; [|split].
  - rewrite limb_value_val, lev_le. rewrite <- (firstn_skipn 32 bs) at 1 2 3 4.
    assert (L1 : length (firstn 32 bs) = 32%nat) by (apply firstn_length_le; lia). rewrite <- (slices4 _ L1).
    assert (SL : forall i, (i + 8 <= 32)%nat -> slice8 (firstn 32 bs ++ skipn 32 bs) i = slice8 (firstn 32 bs) i).
    { intros i Hi. unfold slice8. rewrite skipn_app, firstn_app, skipn_length, L1. replace (8 - (32 - i))%nat with 0%nat by lia. cbn [firstn]. rewrite app_nil_r. reflexivity. }
    rewrite !SL by lia. reflexivity.
  - rewrite limb_value_val, lev_le. set (t := skipn 32 bs).
    assert (L1 : length (firstn 32 t) = 32%nat) by (apply firstn_length_le; unfold t; rewrite skipn_length; lia). rewrite <- (slices4 _ L1).
    assert (SK : forall n m (l : list Z), skipn n (skipn m l) = skipn (n + m) l).
    { intros n m. induction m as [|m IHm]; intros l; [rewrite Nat.add_0_r; reflexivity|]. destruct l; [rewrite !skipn_nil; reflexivity|]. rewrite <- plus_n_Sm. cbn [skipn]. apply IHm. }
    assert (SL : forall i, (i + 8 <= 32)%nat -> slice8 bs (i + 32) = slice8 (firstn 32 t) i).
    { intros i Hi. unfold slice8. rewrite <- SK. fold t. rewrite <- (firstn_skipn 32 t) at 1. rewrite skipn_app, firstn_app, skipn_length, L1. replace (8 - (32 - i))%nat with 0%nat by lia. cbn [firstn]. rewrite app_nil_r. reflexivity. }
    rewrite <- !SL by lia. reflexivity.
  - destruct (Nat.leb_spec 97 (length bs)) as [G|G].
    + rewrite (nth_error_nth' bs 0) by lia. rewrite Z.eqb_eq. split; [intros ->; reflexivity|intros E; injection E as E; exact E].
    + rewrite (proj2 (nth_error_None bs 96)) by lia. split; discriminate.
Qed.
(** Decoding rejects nothing: a string that encodes no point is decoded, and the point is not on the curve, for both
    curves ([y^2 = x^3 + 3] over the base field, [y^2 = x^3 - 17] over the scalar field).  The derived codec, which
    does reject what is not an encoding, accepts the same points. *)
Theorem C25_rejection_refuted :
  exists bs x y, length bs = 97%nat /\ Forall is_byte bs /\ from_slice_unchecked bs = (x, (y, false)) /\ (forall p, to_raw_bytes p <> bs) /\
    represents Q_MOD x 0 /\ represents Q_MOD y 0 /\ (0 * 0) mod Q_MOD <> (0 * 0 * 0 + 3) mod Q_MOD /\
    represents R_MOD x 0 /\ represents R_MOD y 0 /\ (0 * 0) mod R_MOD <> (0 * 0 * 0 - 17) mod R_MOD /\
    dec (c_affine c_field) (enc (c_affine c_field) (x, (y, false))) = Some ((x, (y, false)), []).
Proof.
  exists (repeat 0 64 ++ repeat 7 32 ++ [0]), fzero, fzero. split; [reflexivity|]. split.
  { apply Forall_app. split; [|apply Forall_app; split]; apply Forall_forall; intros v Hv.
    - apply repeat_spec in Hv; subst; unfold is_byte; lia.
    - apply repeat_spec in Hv; subst; unfold is_byte; lia.
    - destruct Hv as [<-|[]]. unfold is_byte. lia. }
  split; [vm_compute; reflexivity|]. split.
  { intros [x [y inf]] E. apply (f_equal (fun l => nth 64 l 5)) in E. unfold to_raw_bytes, limbs in E. cbn [app flat_map] in E. vm_compute in E. discriminate E. }
  assert (FQ : bn_field fq Q_MOD) by (right; split; reflexivity). assert (FR : bn_field fr R_MOD) by (left; split; reflexivity).
  split; [exact (C01_zero fq Q_MOD FQ)|]. split; [exact (C01_zero fq Q_MOD FQ)|]. split; [rewrite Q_MOD_val; vm_compute; discriminate|].
  split; [exact (C01_zero fr R_MOD FR)|]. split; [exact (C01_zero fr R_MOD FR)|]. split; [rewrite R_MOD_val; vm_compute; discriminate|]. vm_compute. reflexivity.
Qed.
(** Nor does it reject coordinates that are not reduced. *)
Theorem C25_unreduced_refuted P m p : bn_field P m -> point_val p -> reduced m (fst p) ->
  exists bs x, length bs = 97%nat /\ from_slice_unchecked bs = (x, snd p) /\ x <> fst p /\ limb_value x mod m = limb_value (fst p) mod m.
Proof.
  intros F [_ Wp] R. destruct (C50_canonical_refuted P m (fst p) F R) as (b & N & _ & V & _ & D). pose proof (D []) as D0. 
  apply (x_only _ _ x_field) in D0; [|].
  - destruct D0 as [Wb _]. exists (to_raw_bytes (b, snd p)), b. destruct p as [x [y inf]]. cbn [fst snd] in *.
    destruct (C25_raw_round_trip (b, (y, inf))) as (E & L & _); [split; [exact Wb|exact Wp]|]. auto.
  - rewrite app_nil_r. destruct b as [b0 b1 b2 b3]. cbn [enc c_field c_iso c_pair w0 w1 w2 w3]. cbn [enc c_u64]. repeat (apply Forall_app; split); apply le_enc_bytes.
Qed.
Example C25_example : point_val (fone fr, (fneg fr (fone fr), true)) /\ from_slice_unchecked (to_raw_bytes (fone fr, (fneg fr (fone fr), true))) = (fone fr, (fneg fr (fone fr), true)) /\
  from_slice_unchecked [1; 0; 0; 0; 0; 0; 0; 0; 9] = (L4 1 0 0 0, (L4 0 0 0 0, false)).
Proof.
  split; [|split; vm_compute; reflexivity]. assert (FR : bn_field fr R_MOD) by (left; split; reflexivity).
  split; [exact (proj1 (C02_one fr R_MOD FR))|]. split; [exact (proj1 (C01_neg fr R_MOD _ 1 FR (C02_one fr R_MOD FR)))|exact I].
Qed.
