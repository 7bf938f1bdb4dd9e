From Coq Require Import ZArith List Bool Lia Znumtheory.
From Verif Require Import LimbModel FieldModel FieldSpec LimbProofs MontProofs FieldProofs DigitProofs CodecModel CodecSpec.
Import ListNotations.
Local Open Scope Z_scope.

Lemma le_enc_digits n v : le_enc n v = digits 256 n v.
Proof. reflexivity. Qed.
Lemma le_enc_length n v : length (le_enc n v) = n.
Proof. unfold le_enc. rewrite map_length, seq_length. reflexivity. Qed.
Lemma le_enc_bytes n v : Forall is_byte (le_enc n v).
Proof. apply Forall_forall. intros d H. rewrite le_enc_digits in H. apply digits_range in H; [exact H|lia]. Qed.
Lemma le_enc_value n v : 0 <= v < 256 ^ Z.of_nat n -> le_word (le_enc n v) = v.
Proof. intros H. change (le_word (le_enc n v)) with (lev 256 (digits 256 n v)). rewrite digits_lev by lia. apply Z.mod_small, H. Qed.
Lemma le_word_range l : Forall is_byte l -> 0 <= le_word l < 256 ^ Z.of_nat (length l).
Proof. intros H. apply lev_range; [lia|]. apply Forall_forall, H. Qed.
Lemma le_word_inv n l : length l = n -> Forall is_byte l -> le_enc n (le_word l) = l.
Proof.
  intros L H. pose proof (le_word_range l H) as R. rewrite L in R. apply (lev_inj 256); [lia| | | |].
  - intros d Hd. rewrite le_enc_digits in Hd. apply digits_range in Hd; [exact Hd|lia].
  - apply Forall_forall, H.
  - rewrite le_enc_length, L. reflexivity.
  - exact (le_enc_value n _ R).
Qed.
Lemma take_app n l rest : length l = n -> take n (l ++ rest) = Some (l, rest).
Proof.
  intros <-. unfold take. rewrite app_length. destruct (Nat.leb_spec (length l) (length l + length rest)); [|lia].
  rewrite firstn_app, skipn_app, firstn_all, skipn_all, Nat.sub_diag, app_nil_r. reflexivity.
Qed.
Lemma take_inv n bs l r : take n bs = Some (l, r) -> length l = n /\ bs = l ++ r.
Proof.
  unfold take. destruct (Nat.leb_spec n (length bs)) as [H|]; [|discriminate]. intros E. injection E as <- <-.
  split; [apply firstn_length_le, H|symmetry; apply firstn_skipn].
Qed.
Lemma le_dec_enc n v rest : 0 <= v < 256 ^ Z.of_nat n -> le_dec n (le_enc n v ++ rest) = Some (v, rest).
Proof. intros H. unfold le_dec. rewrite take_app by apply le_enc_length. rewrite le_enc_value by exact H. reflexivity. Qed.
Lemma le_dec_inv n bs v r : Forall is_byte bs -> le_dec n bs = Some (v, r) -> 0 <= v < 256 ^ Z.of_nat n /\ bs = le_enc n v ++ r.
Proof.
  unfold le_dec. intros H. destruct (take n bs) as [[l r']|] eqn:E; [|discriminate]. intros X. injection X as <- <-. apply take_inv in E. destruct E as [L ->].
  apply Forall_app in H. destruct H as [H _]. pose proof (le_word_range l H) as R. rewrite L in R. split; [exact R|]. rewrite le_word_inv by assumption. reflexivity.
Qed.

Lemma x_u64 : exact_codec c_u64 u64_val.
Proof.
  assert (E : 256 ^ Z.of_nat 8 = 2 ^ 64) by reflexivity.
  constructor; cbn [enc dec c_u64]; unfold u64_val.
  - intros a _. apply le_enc_bytes.
  - intros a rest H. apply le_dec_enc. rewrite E. exact H.
  - intros bs a rest H D. apply le_dec_inv in D; [|exact H]. rewrite E in D. exact D.
Qed.
Lemma x_bool : exact_codec c_bool any.
Proof.
  constructor; cbn [enc dec c_bool].
  - intros a _. constructor; [|constructor]. unfold is_byte. destruct a; lia.
  - intros [|] rest _; reflexivity.
  - intros [|b bs] a rest _ D; [discriminate D|]. destruct (Z.eqb_spec b 0) as [->|]; [|destruct (Z.eqb_spec b 1) as [->|]; [|discriminate D]]; injection D as <- <-; split; try exact I; reflexivity.
Qed.
Lemma x_unit : exact_codec c_unit any.
Proof.
  constructor; cbn [enc dec c_unit]; [intros; constructor|intros [] rest _; reflexivity|]. intros bs [] rest _ D. injection D as <-. split; [exact I|reflexivity].
Qed.
Lemma x_pair {A B} (ca : codec A) (cb : codec B) da db : exact_codec ca da -> exact_codec cb db -> exact_codec (c_pair ca cb) (both da db).
Proof.
  intros HA HB. constructor; cbn [enc dec c_pair]; unfold both.
  - intros [a b] [Da Db]. apply Forall_app. split; [apply HA, Da|apply HB, Db].
  - intros [a b] rest [Da Db]. cbn [fst snd] in *. rewrite <- app_assoc, (x_round _ _ HA) by exact Da. rewrite (x_round _ _ HB) by exact Db. reflexivity.
  - intros bs [a b] rest H D. destruct (dec ca bs) as [[a' r]|] eqn:E; [|discriminate D]. destruct (dec cb r) as [[b' r']|] eqn:E'; [|discriminate D]. injection D as <- <- <-.
    apply (x_only _ _ HA) in E; [|exact H]. destruct E as [Da ->]. apply Forall_app in H. destruct H as [_ H]. apply (x_only _ _ HB) in E'; [|exact H]. destruct E' as [Db ->].
    rewrite app_assoc. auto.
Qed.
Lemma x_sum {A B} (ca : codec A) (cb : codec B) da db : exact_codec ca da -> exact_codec cb db -> exact_codec (c_sum ca cb) (either da db).
Proof.
  intros HA HB. constructor; cbn [enc dec c_sum]; unfold either.
  - intros [a|b] D; (constructor; [unfold is_byte; lia|]); [apply HA, D|apply HB, D].
  - intros [a|b] rest D; cbn [app Z.eqb]; [rewrite (x_round _ _ HA) by exact D|rewrite (x_round _ _ HB) by exact D]; reflexivity.
  - intros [|t bs] v rest H D; [discriminate D|]. inversion H as [|? ? _ H']; subst.
    destruct (Z.eqb_spec t 0) as [->|].
    + destruct (dec ca bs) as [[a r]|] eqn:E; [|discriminate D]. injection D as <- <-. apply (x_only _ _ HA) in E; [|exact H']. destruct E as [Da ->]. auto.
    + destruct (Z.eqb_spec t 1) as [->|]; [|discriminate D]. destruct (dec cb bs) as [[a r]|] eqn:E; [|discriminate D]. injection D as <- <-. apply (x_only _ _ HB) in E; [|exact H']. destruct E as [Da ->]. auto.
Qed.
Lemma x_iso {A B} (f : A -> B) (g : B -> A) (c : codec A) (da : A -> Prop) (db : B -> Prop) :
  (forall a, g (f a) = a) -> (forall b, f (g b) = b) -> (forall b, db b <-> da (g b)) -> exact_codec c da -> exact_codec (c_iso f g c) db.
Proof.
  intros GF FG DD H. constructor; cbn [enc dec c_iso].
  - intros b D. apply H, DD, D.
  - intros b rest D. rewrite (x_round _ _ H) by (apply DD, D). rewrite FG. reflexivity.
  - intros bs b rest HB D. destruct (dec c bs) as [[a r]|] eqn:E; [|discriminate D]. injection D as <- <-. apply (x_only _ _ H) in E; [|exact HB]. rewrite GF. destruct E as [Da E]. split; [apply DD; rewrite GF; exact Da|exact E].
Qed.
Lemma x_field : exact_codec c_field limbs_ok.
Proof.
  eapply x_iso; [| | |exact (x_pair _ _ _ _ x_u64 (x_pair _ _ _ _ x_u64 (x_pair _ _ _ _ x_u64 x_u64)))].
  - intros (a & b & c & d). reflexivity.
  - intros [a b c d]. reflexivity.
  - intros [a b c d]. reflexivity.
Qed.

Lemma bytes_needed_ok v : 2 ^ 30 <= v < 2 ^ 64 -> (4 <= bytes_needed v <= 8)%nat /\ v < 256 ^ Z.of_nat (bytes_needed v) /\
  (if Z.of_nat (bytes_needed v) =? 4 then 2 ^ 30 else 256 ^ (Z.of_nat (bytes_needed v) - 1)) <= v.
Proof.
  intros H. unfold bytes_needed.
  destruct (Z.ltb_spec v (2 ^ 32)); [split; [lia|]; cbn; lia|]. destruct (Z.ltb_spec v (2 ^ 40)); [split; [lia|]; cbn; lia|].
  destruct (Z.ltb_spec v (2 ^ 48)); [split; [lia|]; cbn; lia|]. destruct (Z.ltb_spec v (2 ^ 56)); [split; [lia|]; cbn; lia|]. split; [lia|]; cbn; lia.
Qed.
Lemma bytes_needed_eq n v : 4 <= n <= 8 -> 0 <= v < 256 ^ n -> (if n =? 4 then 2 ^ 30 else 256 ^ (n - 1)) <= v -> Z.of_nat (bytes_needed v) = n.
Proof.
  intros N H L. assert (C : n = 4 \/ n = 5 \/ n = 6 \/ n = 7 \/ n = 8) by lia. unfold bytes_needed.
  destruct C as [->|[->|[->|[->| ->]]]]; cbn in H, L; (destruct (Z.ltb_spec v (2 ^ 32)); try (cbn; lia)); (destruct (Z.ltb_spec v (2 ^ 40)); try (cbn; lia));
    (destruct (Z.ltb_spec v (2 ^ 48)); try (cbn; lia)); (destruct (Z.ltb_spec v (2 ^ 56)); try (cbn; lia)).
Qed.
Lemma le_enc_cons n v : le_enc (S n) v = v mod 256 :: le_enc n (v / 256).
Proof.
  unfold le_enc. cbn [seq map]. change (256 ^ Z.of_nat 0) with 1. rewrite Z.div_1_r. apply f_equal. rewrite <- seq_shift, map_map. apply map_ext. intros i.
  rewrite Nat2Z.inj_succ, Z.pow_succ_r by lia. rewrite Z.div_div by lia. reflexivity.
Qed.
Lemma mod4 v : (v mod 256) mod 4 = v mod 4.
Proof. symmetry. apply Zmod_div_mod; [lia|lia|]. exists 64. reflexivity. Qed.
Lemma compact_round maxb v rest : maxb = 4 \/ maxb = 8 -> 0 <= v < 256 ^ maxb -> compact_dec maxb (compact_enc v ++ rest) = Some (v, rest).
Proof.
  intros HM H. assert (H64 : v < 2 ^ 64) by (destruct HM as [-> | ->]; cbn in H; lia). unfold compact_enc.
  destruct (Z.ltb_spec v (2 ^ 6)) as [C|C].
  { cbn [app compact_dec]. replace ((4 * v) mod 4) with 0 by (symmetry; rewrite Z.mul_comm; apply Z.mod_mul; lia). cbn [Z.eqb]. rewrite Z.mul_comm, Z.div_mul by lia. reflexivity. }
  destruct (Z.ltb_spec v (2 ^ 14)) as [C2|C2].
  { assert (R : le_dec 2 (le_enc 2 (4 * v + 1) ++ rest) = Some (4 * v + 1, rest)) by (apply le_dec_enc; change (256 ^ Z.of_nat 2) with 65536; lia).
    rewrite le_enc_cons in *. cbn [app compact_dec] in *. rewrite mod4. replace ((4 * v + 1) mod 4) with 1 by (apply (Z.mod_unique_pos _ _ v); lia). cbn [Z.eqb Pos.eqb]. rewrite R.
    replace ((4 * v + 1) / 4) with v by (apply (Z.div_unique_pos _ _ _ 1); lia). destruct (Z.leb_spec (2 ^ 6) v); [reflexivity|lia]. }
  destruct (Z.ltb_spec v (2 ^ 30)) as [C3|C3].
  { assert (R : le_dec 4 (le_enc 4 (4 * v + 2) ++ rest) = Some (4 * v + 2, rest)) by (apply le_dec_enc; change (256 ^ Z.of_nat 4) with 4294967296; lia).
    rewrite le_enc_cons in *. cbn [app compact_dec] in *. rewrite mod4. replace ((4 * v + 2) mod 4) with 2 by (apply (Z.mod_unique_pos _ _ v); lia). cbn [Z.eqb Pos.eqb]. rewrite R.
    replace ((4 * v + 2) / 4) with v by (apply (Z.div_unique_pos _ _ _ 2); lia). destruct (Z.leb_spec (2 ^ 14) v); [reflexivity|lia]. }
  destruct (bytes_needed_ok v (conj C3 H64)) as (N & U & L). cbn [app compact_dec]. set (n := Z.of_nat (bytes_needed v)) in *.
  replace ((4 * (n - 4) + 3) mod 4) with 3 by (apply (Z.mod_unique_pos _ _ (n - 4)); lia). cbn [Z.eqb Pos.eqb].
  replace ((4 * (n - 4) + 3) / 4 + 4) with n by (rewrite <- (Z.div_unique_pos (4 * (n - 4) + 3) 4 (n - 4) 3); lia).
  destruct (Z.ltb_spec maxb n) as [X|X].
  { exfalso. destruct HM as [-> | ->]; [|lia]. assert (bytes_needed v = 4%nat) by (unfold bytes_needed; cbn in H; destruct (Z.ltb_spec v (2 ^ 32)); [reflexivity|cbn in *; lia]). lia. }
  unfold n at 1. rewrite Nat2Z.id, le_dec_enc by (fold n; split; [exact (proj1 H)|exact U]). destruct (Z.leb_spec (if n =? 4 then 2 ^ 30 else 256 ^ (n - 1)) v) as [_|Y]; [reflexivity|]. unfold n in *. lia.
Qed.
Lemma compact_bytes v : 0 <= v < 2 ^ 64 -> Forall is_byte (compact_enc v).
Proof.
  intros H. unfold compact_enc. destruct (Z.ltb_spec v (2 ^ 6)) as [C|C]; [constructor; [unfold is_byte; cbn in C; lia|constructor]|].
  destruct (Z.ltb_spec v (2 ^ 14)) as [C2|C2]; [apply le_enc_bytes|]. destruct (Z.ltb_spec v (2 ^ 30)) as [C3|C3]; [apply le_enc_bytes|].
  destruct (bytes_needed_ok v (conj C3 (proj2 H))) as (N & _). constructor; [unfold is_byte; lia|apply le_enc_bytes].
Qed.
Lemma compact_only maxb bs v rest : maxb = 4 \/ maxb = 8 -> Forall is_byte bs -> compact_dec maxb bs = Some (v, rest) -> 0 <= v < 256 ^ maxb /\ bs = compact_enc v ++ rest.
Proof.
  intros HM H. assert (P32 : 256 ^ 4 <= 256 ^ maxb) by (destruct HM as [-> | ->]; cbn; lia). change (256 ^ 4) with (2 ^ 32) in P32.
  destruct bs as [|p r]; [discriminate|]. cbn [compact_dec]. inversion H as [|? ? HP HR]; subst. unfold is_byte in HP.
  assert (M : 0 <= p mod 4 < 4) by (apply Z.mod_pos_bound; lia). pose proof (Z.div_mod p 4 ltac:(lia)) as DM. assert (DB : 0 <= p / 4 < 64) by (split; [apply Z.div_pos; lia|apply Z.div_lt_upper_bound; lia]).
  destruct (Z.eqb_spec (p mod 4) 0) as [E0|E0].
  { intros E. injection E as <- <-. split; [cbn in *; lia|]. unfold compact_enc. destruct (Z.ltb_spec (p / 4) (2 ^ 6)); [|cbn in *; lia]. cbn [app]. f_equal. lia. }
  destruct (Z.eqb_spec (p mod 4) 1) as [E1|E1].
  { destruct (le_dec 2 (p :: r)) as [[x r']|] eqn:D; [|discriminate]. apply le_dec_inv in D; [|exact H]. destruct D as [R D]. rewrite D.
    assert (X : x mod 4 = 1). { rewrite le_enc_cons in D. cbn [app] in D. injection D as D _. rewrite <- E1, D. apply eq_sym, mod4. }
    destruct (Z.leb_spec (2 ^ 6) (x / 4)) as [L|]; [|discriminate]. intros E. injection E as <- <-. pose proof (Z.div_mod x 4 ltac:(lia)) as DX. cbn in R.
    assert (U : x / 4 < 2 ^ 14) by (apply Z.div_lt_upper_bound; cbn; lia). split; [cbn in *; lia|].
    unfold compact_enc. destruct (Z.ltb_spec (x / 4) (2 ^ 6)); [lia|]. destruct (Z.ltb_spec (x / 4) (2 ^ 14)); [|lia]. f_equal. f_equal. lia. }
  destruct (Z.eqb_spec (p mod 4) 2) as [E2|E2].
  { destruct (le_dec 4 (p :: r)) as [[x r']|] eqn:D; [|discriminate]. apply le_dec_inv in D; [|exact H]. destruct D as [R D]. rewrite D.
    assert (X : x mod 4 = 2). { rewrite le_enc_cons in D. cbn [app] in D. injection D as D _. rewrite <- E2, D. apply eq_sym, mod4. }
    destruct (Z.leb_spec (2 ^ 14) (x / 4)) as [L|]; [|discriminate]. intros E. injection E as <- <-. pose proof (Z.div_mod x 4 ltac:(lia)) as DX. cbn in R.
    assert (U : x / 4 < 2 ^ 30) by (apply Z.div_lt_upper_bound; cbn; lia). split; [cbn in *; lia|].
    unfold compact_enc. destruct (Z.ltb_spec (x / 4) (2 ^ 6)); [cbn in *; lia|]. destruct (Z.ltb_spec (x / 4) (2 ^ 14)); [lia|]. destruct (Z.ltb_spec (x / 4) (2 ^ 30)); [|lia]. f_equal. f_equal. lia. }
  assert (E3 : p mod 4 = 3) by lia. cbv zeta. set (n := p / 4 + 4) in *. destruct (Z.ltb_spec maxb n) as [|NB]; [discriminate|].
  destruct (le_dec (Z.to_nat n) r) as [[x r']|] eqn:D; [|discriminate]. apply le_dec_inv in D; [|exact HR]. destruct D as [R D]. rewrite Z2Nat.id in R by lia.
  destruct (Z.leb_spec (if n =? 4 then 2 ^ 30 else 256 ^ (n - 1)) x) as [L|]; [|discriminate]. intros E. injection E as <- <-.
  assert (N : 4 <= n <= 8) by (destruct HM as [-> | ->]; lia). pose proof (bytes_needed_eq n x N R L) as BN.
  assert (P : 256 ^ n <= 256 ^ maxb) by (apply Z.pow_le_mono_r; lia). split; [lia|].
  assert (L30 : 2 ^ 30 <= x). { destruct (Z.eqb_spec n 4); [exact L|]. assert (256 ^ 4 <= 256 ^ (n - 1)) by (apply Z.pow_le_mono_r; lia). cbn in *; lia. }
  unfold compact_enc. destruct (Z.ltb_spec x (2 ^ 6)); [cbn in *; lia|]. destruct (Z.ltb_spec x (2 ^ 14)); [cbn in *; lia|]. destruct (Z.ltb_spec x (2 ^ 30)); [lia|].
  cbn [app]. rewrite BN, D. replace (Z.to_nat n) with (bytes_needed x) by lia. f_equal. unfold n. lia.
Qed.
Lemma x_compact64 : exact_codec c_compact64 u64_val.
Proof.
  constructor; cbn [enc dec c_compact64]; unfold u64_val.
  - apply compact_bytes.
  - intros a rest H. apply compact_round; [right; reflexivity|exact H].
  - intros bs a rest H D. apply compact_only in D; [exact D|right; reflexivity|exact H].
Qed.
Lemma x_times {A} (c : codec A) da : exact_codec c da ->
  (forall l rest, Forall da l -> dec_times c (length l) (flat_map (enc c) l ++ rest) = Some (l, rest)) /\
  (forall n bs l rest, Forall is_byte bs -> dec_times c n bs = Some (l, rest) -> length l = n /\ Forall da l /\ bs = flat_map (enc c) l ++ rest).
Proof.
  intros H. split.
  - intros l rest D. induction D as [|a l Da Dl IH]; [reflexivity|]. cbn [length flat_map dec_times]. rewrite <- app_assoc, (x_round _ _ H) by exact Da. rewrite IH. reflexivity.
  - induction n as [|n IH]; intros bs l rest HB D; cbn [dec_times] in D.
    + injection D as <- <-. split; [reflexivity|]. split; [constructor|reflexivity].
    + destruct (dec c bs) as [[a r]|] eqn:E; [|discriminate D]. destruct (dec_times c n r) as [[l' r']|] eqn:E'; [|discriminate D]. injection D as <- <-.
      apply (x_only _ _ H) in E; [|exact HB]. destruct E as [Da ->]. apply Forall_app in HB. destruct HB as [_ HB]. destruct (IH _ _ _ HB E') as (L & F & ->).
      cbn [length flat_map]. rewrite <- app_assoc, L. split; [reflexivity|]. split; [constructor; assumption|reflexivity].
Qed.
Lemma x_vec {A} (c : codec A) da : exact_codec c da -> exact_codec (c_vec c) (vec_of da).
Proof.
  intros H. destruct (x_times c da H) as [T1 T2]. assert (E4 : 256 ^ 4 = 2 ^ 32) by reflexivity.
  constructor; cbn [enc dec c_vec]; unfold vec_of.
  - intros l [L D]. apply Forall_app. split; [apply compact_bytes; cbn in *; lia|]. apply Forall_flat_map. eapply Forall_impl; [|exact D]. intros a Da. apply H, Da.
  - intros l rest [L D]. rewrite <- app_assoc, compact_round; [|left; reflexivity|rewrite E4; lia]. rewrite Nat2Z.id. apply T1, D.
  - intros bs l rest HB D. destruct (compact_dec 4 bs) as [[n r]|] eqn:E; [|discriminate D]. apply compact_only in E; [|left; reflexivity|exact HB]. destruct E as [R ->]. rewrite E4 in R.
    apply Forall_app in HB. destruct HB as [_ HB]. destruct (T2 _ _ _ _ HB D) as (L & F & ->). rewrite <- app_assoc, L, Z2Nat.id by lia. split; [split; [lia|exact F]|reflexivity].
Qed.

Lemma x_affine {A} (c : codec A) da : exact_codec c da -> exact_codec (c_affine c) (affine_val da).
Proof. intros H. exact (x_pair _ _ _ _ H (x_pair _ _ _ _ H x_bool)). Qed.
Lemma x_projective {A} (c : codec A) da : exact_codec c da -> exact_codec (c_projective c) (projective_val da).
Proof. intros H. exact (x_pair _ _ _ _ H (x_pair _ _ _ _ H H)). Qed.
Lemma x_wire : exact_codec c_wire wire_val. Proof. exact (x_sum _ _ _ _ x_compact64 x_compact64). Qed.
Lemma x_row : exact_codec c_row row_val. Proof. exact (x_vec _ _ (x_pair _ _ _ _ x_wire x_field)). Qed.
Lemma x_matrix : exact_codec c_matrix matrix_val. Proof. exact (x_vec _ _ x_row). Qed.
Lemma x_dense : exact_codec c_dense dense_val. Proof. exact (x_vec _ _ x_field). Qed.
Lemma x_shape : exact_codec c_shape shape_val.
Proof. exact (x_pair _ _ _ _ x_compact64 (x_pair _ _ _ _ x_compact64 (x_pair _ _ _ _ x_compact64 (x_pair _ _ _ _ x_matrix (x_pair _ _ _ _ x_matrix x_matrix))))). Qed.
Lemma x_point : exact_codec (c_affine c_field) point_val. Proof. exact (x_affine _ _ x_field). Qed.
Lemma x_instance : exact_codec c_instance instance_val. Proof. exact (x_pair _ _ _ _ x_point x_dense). Qed.
Lemma x_relaxed_instance : exact_codec c_relaxed_instance relaxed_instance_val.
Proof. exact (x_pair _ _ _ _ x_point (x_pair _ _ _ _ x_point (x_pair _ _ _ _ x_field x_dense))). Qed.
Lemma x_relaxed_witness : exact_codec c_relaxed_witness relaxed_witness_val. Proof. exact (x_pair _ _ _ _ x_dense x_dense). Qed.
Lemma x_proof : exact_codec c_proof proof_val.
Proof.
  exact (x_pair _ _ _ _ x_compact64 (x_pair _ _ _ _ x_dense (x_pair _ _ _ _ x_dense (x_pair _ _ _ _ x_dense (x_pair _ _ _ _ x_dense
    (x_pair _ _ _ _ (x_pair _ _ _ _ (x_pair _ _ _ _ x_instance x_dense) (x_pair _ _ _ _ (x_pair _ _ _ _ x_relaxed_instance x_relaxed_witness) (x_pair _ _ _ _ x_relaxed_instance x_relaxed_witness))) x_unit)))))).
Qed.
Lemma x_params : exact_codec c_params params_val.
Proof. exact (x_pair _ _ _ _ x_shape (x_pair _ _ _ _ x_shape (x_pair _ _ _ _ (x_vec _ _ x_point) (x_pair _ _ _ _ (x_vec _ _ x_point) x_unit)))). Qed.
