(** Positional digits: bits, base-4 digits, bytes and signed digits of four limbs. *)
From Coq Require Import ZArith List Bool Lia.
From Verif Require Import LimbModel LimbProofs MontProofs FieldModel FieldSpec FieldProofs.
Import ListNotations.
Local Open Scope Z_scope.

(** Little-endian value in base [b]. *)
Definition lev (b : Z) (l : list Z) : Z := fold_right (fun d acc => d + b * acc) 0 l.

Lemma lev_cons b d l : lev b (d :: l) = d + b * lev b l. Proof. reflexivity. Qed.

Lemma lev_app b l1 l2 : lev b (l1 ++ l2) = lev b l1 + b ^ Z.of_nat (length l1) * lev b l2.
Proof.
  induction l1 as [|d l1 IH].
  - change (lev b l2 = 0 + b ^ 0 * lev b l2). rewrite Z.pow_0_r. ring.
  - cbn [app length]. rewrite !lev_cons, IH.
    rewrite Nat2Z.inj_succ, Z.pow_succ_r by lia. ring.
Qed.

Lemma be_value_app b l1 l2 : be_value b (l1 ++ l2) = be_value b l1 * b ^ Z.of_nat (length l2) + be_value b l2.
Proof.
  unfold be_value. rewrite fold_left_app. generalize (fold_left (fun acc d => b * acc + d) l1 0) as z.
  assert (H : forall l z w, fold_left (fun acc d => b * acc + d) l (z + w)
              = z * b ^ Z.of_nat (length l) + fold_left (fun acc d => b * acc + d) l w).
  { induction l as [|d l IH]; intros z w; cbn [fold_left length]. 
    - change (Z.of_nat 0) with 0. rewrite Z.pow_0_r. ring.
    - replace (b * (z + w) + d) with (b * z + (b * w + d)) by ring. rewrite IH.
      rewrite Nat2Z.inj_succ, Z.pow_succ_r by lia. ring. }
  intros z. replace z with (z + 0) at 1 by ring. apply H.
Qed.
Lemma be_value_rev b l : be_value b (rev l) = lev b l.
Proof.
  induction l as [|d l IH]; [reflexivity|]. cbn [rev]. rewrite be_value_app, IH. cbn. fold (lev b l).
  change (be_value b [d]) with (b * 0 + d). lia.
Qed.

Definition digits (b : Z) (n : nat) (x : Z) : list Z := map (fun i => (x / b ^ (Z.of_nat i)) mod b) (seq 0 n).

Lemma digits_S b n x : 0 < b -> digits b (S n) x = (x mod b) :: digits b n (x / b).
Proof.
  intros Hb. unfold digits. cbn [seq map]. f_equal.
  - cbn [Z.of_nat]. rewrite Z.pow_0_r, Z.div_1_r. reflexivity.
  - rewrite <- seq_shift, map_map. apply map_ext. intros i.
    rewrite Nat2Z.inj_succ, Z.pow_succ_r by lia. rewrite Z.div_div by (try lia; apply Z.pow_pos_nonneg; lia). reflexivity.
Qed.
Lemma digits_length b n x : length (digits b n x) = n.
Proof. unfold digits. rewrite map_length, seq_length. reflexivity. Qed.
Lemma digits_lev b n x : 0 < b -> lev b (digits b n x) = x mod b ^ Z.of_nat n.
Proof.
  intros Hb. revert x. induction n as [|n IH]; intros x.
  - cbn. rewrite Z.mod_1_r. reflexivity.
  - rewrite digits_S by exact Hb. rewrite lev_cons, IH.
    rewrite Nat2Z.inj_succ, Z.pow_succ_r by lia.
    rewrite Z.rem_mul_r by (try lia; apply Z.pow_nonzero; lia). reflexivity.
Qed.
Lemma digits_range b n x d : 0 < b -> In d (digits b n x) -> 0 <= d < b.
Proof. intros Hb H. unfold digits in H. apply in_map_iff in H as (i & <- & _). apply Z.mod_pos_bound, Hb. Qed.

(** Expanding every digit of a string into a block of digits. *)
Lemma flat_map_lev b n f (l : list Z) :
  (forall d, In d l -> length (f d) = n /\ lev b (f d) = d) ->
  lev b (flat_map f l) = lev (b ^ Z.of_nat n) l.
Proof.
  intros H. induction l as [|d l IH]; [reflexivity|].
  cbn [flat_map]. rewrite lev_cons, lev_app, IH by (intros; apply H; right; assumption).
  destruct (H d (or_introl eq_refl)) as [-> ->]. reflexivity.
Qed.
Lemma flat_map_length' {A} n (f : A -> list Z) l : (forall d, length (f d) = n) -> length (flat_map f l) = (length l * n)%nat.
Proof. intros H. induction l as [|d l IH]; [reflexivity|]. cbn [flat_map length]. rewrite app_length, H, IH. reflexivity. Qed.

Lemma byte_bits_digits d : byte_bits d = digits 2 8 d. Proof. reflexivity. Qed.
Lemma byte_quads_digits d : byte_quads d = digits 4 4 d. Proof. reflexivity. Qed.
Lemma le_bytes_digits d : le_bytes d = digits 256 8 d. Proof. reflexivity. Qed.

Lemma le_bytes_lev x : word x -> lev 256 (le_bytes x) = x.
Proof. intros H. rewrite le_bytes_digits, digits_lev by lia. apply Z.mod_small. unfold word in H. rewrite Bval in H. exact H. Qed.
Lemma le_bytes_range x d : In d (le_bytes x) -> 0 <= d < 256.
Proof. rewrite le_bytes_digits. apply digits_range. lia. Qed.

Lemma limbs_lev a : lev (2 ^ 64) (limbs a) = val a.
Proof. unfold limbs, val, lev; cbn [fold_right]. rewrite Bval. ring. Qed.
Lemma limbs_word a x : wf a -> In x (limbs a) -> word x.
Proof. intros (A & C & D & E) H. cbn in H. intuition (subst; assumption). Qed.

Lemma word_bits x : word x -> length (flat_map byte_bits (le_bytes x)) = 64%nat /\ lev 2 (flat_map byte_bits (le_bytes x)) = x.
Proof.
  intros H. split; [rewrite (flat_map_length' 8) by (intros; reflexivity); reflexivity|].
  rewrite (flat_map_lev 2 8).
  - apply le_bytes_lev, H.
  - intros d Hd. apply le_bytes_range in Hd. split; [reflexivity|]. rewrite byte_bits_digits, digits_lev by lia.
    apply Z.mod_small. exact Hd.
Qed.
Lemma word_quads x : word x -> length (flat_map byte_quads (le_bytes x)) = 32%nat /\ lev 4 (flat_map byte_quads (le_bytes x)) = x.
Proof.
  intros H. split; [rewrite (flat_map_length' 4) by (intros; reflexivity); reflexivity|].
  rewrite (flat_map_lev 4 4).
  - apply le_bytes_lev, H.
  - intros d Hd. apply le_bytes_range in Hd. split; [reflexivity|]. rewrite byte_quads_digits, digits_lev by lia.
    apply Z.mod_small. exact Hd.
Qed.

Lemma le_bits_lev a : wf a -> lev 2 (le_bits a) = val a.
Proof.
  intros W. unfold le_bits. rewrite (flat_map_lev 2 64).
  - apply limbs_lev.
  - intros d Hd. apply word_bits, (limbs_word a); assumption.
Qed.
Lemma le_bits_length a : length (le_bits a) = 256%nat.
Proof. unfold le_bits, limbs. cbn [flat_map le_bytes byte_bits map app]. reflexivity. Qed.
Lemma le_bits_bit a d : In d (le_bits a) -> d = 0 \/ d = 1.
Proof.
  unfold le_bits. intros H. apply in_flat_map in H as (x & _ & H). apply in_flat_map in H as (y & _ & H).
  rewrite byte_bits_digits in H. apply digits_range in H; lia.
Qed.

Lemma to_bits_value a : wf a -> be_value 2 (to_bits a) = val a.
Proof. intros W. unfold to_bits. rewrite be_value_rev. apply le_bits_lev, W. Qed.
Lemma to_bits_length a : length (to_bits a) = 256%nat.
Proof. unfold to_bits. rewrite rev_length. apply le_bits_length. Qed.
Lemma to_bits_bit a d : In d (to_bits a) -> d = 0 \/ d = 1.
Proof. unfold to_bits. intros H. apply in_rev in H. apply (le_bits_bit a), H. Qed.

(** Leading zeros do not change a big-endian value. *)
Lemma skip_zero_value b l : be_value b (skip_while (Z.eqb 0) l) = be_value b l.
Proof.
  induction l as [|d l IH]; [reflexivity|]. cbn [skip_while].
  destruct (Z.eqb_spec 0 d) as [<-|Hd]; [|reflexivity]. rewrite IH. change (0 :: l) with ([0] ++ l).
  rewrite be_value_app. change (be_value b [0]) with (b * 0 + 0). ring.
Qed.
Lemma skip_zero_head l d r : skip_while (Z.eqb 0) l = d :: r -> d <> 0.
Proof.
  induction l as [|e l IH]; [discriminate|]. cbn [skip_while]. destruct (Z.eqb_spec 0 e) as [<-|He]; [exact IH|].
  intros E. injection E as -> _. lia.
Qed.
Lemma skip_while_in {A} f (l : list A) x : In x (skip_while f l) -> In x l.
Proof. induction l as [|e l IH]; [tauto|]. cbn [skip_while]. destruct (f e); cbn; intuition. Qed.

Lemma quads_value a : wf a ->
  be_value 4 (skip_while (Z.eqb 0) (rev (flat_map (fun limb => flat_map byte_quads (le_bytes limb)) (limbs a)))) = val a.
Proof.
  intros W. rewrite skip_zero_value, be_value_rev, (flat_map_lev 4 32).
  - apply limbs_lev.
  - intros d Hd. apply word_quads, (limbs_word a); assumption.
Qed.

(** pow_vartime's bit order. *)
Lemma word_bits_be_rev e : word_bits_be e = rev (digits 2 64 e).
Proof. unfold word_bits_be, digits. rewrite <- map_rev. reflexivity. Qed.
Lemma be_value_flat f l : (forall d, In d l -> length (f d) = 64%nat /\ be_value 2 (f d) = d) ->
  be_value 2 (flat_map f l) = be_value (2 ^ 64) l.
Proof.
  intros H. assert (G : forall acc, fold_left (fun acc d => 2 * acc + d) (flat_map f l) acc
       = fold_left (fun acc d => 2 ^ 64 * acc + d) l acc); [|apply G].
  induction l as [|d l IH]; intros acc; [reflexivity|]. cbn [flat_map fold_left]. rewrite fold_left_app.
  rewrite IH by (intros; apply H; right; assumption). f_equal.
  destruct (H d (or_introl eq_refl)) as [L V].
  assert (X : forall l' z, fold_left (fun acc d => 2 * acc + d) l' z = z * 2 ^ Z.of_nat (length l') + be_value 2 l').
  { induction l' as [|e l' IH'] ; intros z; [unfold be_value; cbn; ring|].
    cbn [fold_left length]. rewrite IH'. unfold be_value; cbn [fold_left]. rewrite (IH' (2 * 0 + e)).
    rewrite Nat2Z.inj_succ, Z.pow_succ_r by lia. fold (be_value 2 l'). ring. }
  rewrite X, L, V. change (Z.of_nat 64) with 64. ring.
Qed.
Lemma vartime_bits_value e : wf e -> be_value 2 (flat_map word_bits_be (rev (limbs e))) = val e.
Proof.
  intros W. rewrite be_value_flat.
  - rewrite be_value_rev. apply limbs_lev.
  - intros d Hd. apply in_rev in Hd. apply (limbs_word e) in Hd; [|exact W]. rewrite word_bits_be_rev.
    rewrite rev_length, digits_length. split; [reflexivity|]. rewrite be_value_rev, digits_lev by lia.
    apply Z.mod_small. unfold word in Hd. rewrite Bval in Hd. exact Hd.
Qed.
Lemma word_bits_be_bit e d : In d (word_bits_be e) -> d = 0 \/ d = 1.
Proof. rewrite word_bits_be_rev. intros H. apply in_rev in H. apply digits_range in H; lia. Qed.
Lemma word_bits_be_value e : word e -> be_value 2 (word_bits_be e) = e.
Proof.
  intros H. rewrite word_bits_be_rev, be_value_rev, digits_lev by lia. apply Z.mod_small.
  unfold word in H. rewrite Bval in H. exact H.
Qed.
Lemma vartime_bits_bit e d : In d (flat_map word_bits_be (rev (limbs e))) -> d = 0 \/ d = 1.
Proof. intros H. apply in_flat_map in H as (x & _ & H). apply (word_bits_be_bit x), H. Qed.

(** ** Bytes *)
Lemma le_word_lev l : le_word l = lev 256 l. Proof. reflexivity. Qed.
Lemma lev_range b l : 0 < b -> (forall d, In d l -> 0 <= d < b) -> 0 <= lev b l < b ^ Z.of_nat (length l).
Proof.
  intros Hb H. induction l as [|d l IH]; [cbn; lia|]. rewrite lev_cons. cbn [length].
  rewrite Nat2Z.inj_succ, Z.pow_succ_r by lia.
  specialize (IH ltac:(intros; apply H; right; assumption)). specialize (H d (or_introl eq_refl)). nia.
Qed.
Lemma lev_inj b l l' : 0 < b -> (forall d, In d l -> 0 <= d < b) -> (forall d, In d l' -> 0 <= d < b) ->
  length l = length l' -> lev b l = lev b l' -> l = l'.
Proof.
  intros Hb. revert l'. induction l as [|d l IH]; intros [|e l'] H H' L E; try discriminate; [reflexivity|].
  rewrite !lev_cons in E.
  pose proof (H d (or_introl eq_refl)). pose proof (H' e (or_introl eq_refl)).
  assert (lev b l = lev b l' /\ d = e) as [E1 ->].
  { assert (d = e); [|split; [nia|assumption]].
    assert (A : (d + b * lev b l) mod b = (e + b * lev b l') mod b) by (f_equal; exact E).
    rewrite !(Z.mul_comm b), !Z.mod_add, !Z.mod_small in A by lia. exact A. }
  f_equal. apply IH; auto; intros; [apply H|apply H']; right; assumption.
Qed.

Lemma firstn_skipn_split8 (l : list Z) i : firstn 8 (skipn i l) ++ skipn (i + 8) l = skipn i l.
Proof.
  replace (i + 8)%nat with (8 + i)%nat by (apply Nat.add_comm). 
  assert (E : forall n (l' : list Z), skipn n (skipn i l') = skipn (n + i) l').
  { intros n. induction i as [|i IH]; intros l'; [rewrite Nat.add_0_r; reflexivity|].
    destruct l' as [|x l']; [rewrite !skipn_nil; reflexivity|]. rewrite <- plus_n_Sm. cbn [skipn]. apply IH. }
  rewrite <- E. apply firstn_skipn.
Qed.
Lemma slice8_word bytes i : (forall d, In d bytes -> 0 <= d < 256) -> word (slice8 bytes i).
Proof.
  intros H. change (slice8 bytes i) with (lev 256 (firstn 8 (skipn i bytes))). unfold word.
  assert (Hin : forall d, In d (firstn 8 (skipn i bytes)) -> 0 <= d < 256).
  { intros d Hd. apply H. rewrite <- (firstn_skipn i bytes). apply in_or_app. right.
    rewrite <- (firstn_skipn 8 (skipn i bytes)). apply in_or_app. left. exact Hd. }
  pose proof (lev_range 256 _ ltac:(lia) Hin) as R.
  pose proof (firstn_le_length 8 (skipn i bytes)) as L.
  rewrite Bval. split; [lia|]. apply (Z.lt_le_trans _ _ _ (proj2 R)).
  transitivity (256 ^ 8); [|reflexivity || (apply Z.leb_le; reflexivity)]. apply Z.pow_le_mono_r; lia.
Qed.
Lemma slice8_step bytes i : (i + 8 <= length bytes)%nat ->
  lev 256 (skipn i bytes) = slice8 bytes i + 2 ^ 64 * lev 256 (skipn (i + 8) bytes).
Proof.
  intros L. rewrite <- (firstn_skipn_split8 bytes i), lev_app. change (slice8 bytes i) with (lev 256 (firstn 8 (skipn i bytes))). f_equal. f_equal.
  rewrite firstn_length, skipn_length. rewrite Nat.min_l by lia. reflexivity.
Qed.
Lemma slices4 bytes : length bytes = 32%nat ->
  val (L4 (slice8 bytes 0) (slice8 bytes 8) (slice8 bytes 16) (slice8 bytes 24)) = lev 256 bytes.
Proof.
  intros L. change (lev 256 bytes) with (lev 256 (skipn 0 bytes)).
  rewrite (slice8_step bytes 0), (slice8_step bytes (0 + 8)), (slice8_step bytes (0 + 8 + 8)), (slice8_step bytes (0 + 8 + 8 + 8)) by (rewrite L; lia).
  rewrite (skipn_all2 bytes) by (rewrite L; lia). unfold val; cbn [w0 w1 w2 w3 Nat.add lev fold_right]. rewrite Bval. ring.
Qed.
Lemma slices8 bytes : length bytes = 64%nat ->
  val8 (L8 (slice8 bytes 0) (slice8 bytes 8) (slice8 bytes 16) (slice8 bytes 24)
           (slice8 bytes 32) (slice8 bytes 40) (slice8 bytes 48) (slice8 bytes 56)) = lev 256 bytes.
Proof.
  intros L. change (lev 256 bytes) with (lev 256 (skipn 0 bytes)).
  rewrite (slice8_step bytes 0), (slice8_step bytes (0 + 8)), (slice8_step bytes (0 + 8 + 8)), (slice8_step bytes (0 + 8 + 8 + 8)),
    (slice8_step bytes (0+8+8+8+8)), (slice8_step bytes (0+8+8+8+8+8)), (slice8_step bytes (0+8+8+8+8+8+8)), (slice8_step bytes (0+8+8+8+8+8+8+8))
    by (rewrite L; lia).
  rewrite (skipn_all2 bytes) by (rewrite L; lia). unfold val8; cbn [v0 v1 v2 v3 v4 v5 v6 v7 Nat.add lev fold_right]. rewrite Bval. ring.
Qed.

Lemma bytes_of_limbs a : wf a -> lev 256 (flat_map le_bytes (limbs a)) = val a /\
  length (flat_map le_bytes (limbs a)) = 32%nat /\ (forall d, In d (flat_map le_bytes (limbs a)) -> 0 <= d < 256).
Proof.
  intros W. split; [|split; [reflexivity|]].
  - rewrite (flat_map_lev 256 8).
    + apply limbs_lev.
    + intros d Hd. split; [reflexivity|]. apply le_bytes_lev, (limbs_word a); assumption.
  - intros d Hd. apply in_flat_map in Hd as (x & _ & Hd). apply le_bytes_range in Hd. exact Hd.
Qed.

(** ** Signed digits *)
Lemma naf_step bit carry : (bit = 0 \/ bit = 1) -> (carry = 0 \/ carry = 1 \/ carry = 2) ->
  exists d c', naf_of_i8 ((bit * 3 + carry) mod 2 - bit) = Some d /\ (bit * 3 + carry) / 2 = c' /\
    (c' = 0 \/ c' = 1 \/ c' = 2) /\ naf_val d + 2 * c' = 2 * bit + carry /\ (d = NZero <-> carry <> 1) /\
    (d <> NZero -> c' <> 1) /\ (bit = 0 -> 2 * c' <= carry).
Proof.
  intros [->| ->] [->|[->| ->]]; cbn; eexists; eexists; (split; [reflexivity|]); (split; [reflexivity|]); cbn;
    intuition (try discriminate; try lia; try congruence).
Qed.

Lemma naf_digits_spec bits : forall carry, (forall d, In d bits -> d = 0 \/ d = 1) ->
  (carry = 0 \/ carry = 1 \/ carry = 2) ->
  exists ds cout, naf_digits carry bits = Some ds /\ length ds = length bits /\
    (cout = fold_left (fun c b => (b * 3 + c) / 2) bits carry /\ (cout = 0 \/ cout = 1 \/ cout = 2)) /\
    lev 2 (map naf_val ds) + 2 ^ Z.of_nat (length bits) * cout = 2 * lev 2 bits + carry /\
    non_adjacent ds /\
    (match ds with d :: _ => (d = NZero <-> carry <> 1) | [] => True end).
Proof.
  induction bits as [|bit bits IH]; intros carry Hb Hc.
  - exists [], carry. split; [reflexivity|]. split; [reflexivity|]. split; [split; [reflexivity|exact Hc]|].
    split; [change (0 + 1 * carry = 2 * 0 + carry); lia|]. split; exact I.
  - destruct (naf_step bit carry (Hb bit (or_introl eq_refl)) Hc) as (d & c' & E1 & E2 & Hc' & V & Z1 & Z2 & _).
    destruct (IH c' ltac:(intros; apply Hb; right; assumption) Hc') as (ds & cout & E & L & Hco & V' & NA & Hd).
    exists (d :: ds), cout. cbn [naf_digits]. cbv zeta. rewrite E1, E2, E.
    split; [reflexivity|]. split; [cbn; congruence|]. split; [cbn [fold_left]; rewrite E2; exact Hco|]. split; [|split].
    + cbn [map length]. rewrite !lev_cons.
      rewrite Nat2Z.inj_succ, Z.pow_succ_r by lia.
      set (X := 2 ^ Z.of_nat (length bits)) in *.
      replace (2 * X * cout) with (2 * (X * cout)) by ring. lia.
    + destruct ds as [|e ds]; [exact I|]. split; [|exact NA].
      destruct d; [left; reflexivity|right; apply Hd, Z2; discriminate|right; apply Hd, Z2; discriminate].
    + exact Z1.
Qed.

Lemma skip_naf_value l : be_value 2 (map naf_val (skip_while (naf_eqb NZero) l)) = be_value 2 (map naf_val l).
Proof.
  induction l as [|d l IH]; [reflexivity|]. cbn [skip_while].
  destruct d; cbn [naf_eqb]; try reflexivity. rewrite IH. cbn [map naf_val]. change (0 :: map naf_val l) with ([0] ++ map naf_val l).
  rewrite be_value_app. change (be_value 2 [0]) with 0. ring.
Qed.

Lemma non_adjacent_app l x y : non_adjacent (l ++ [x]) -> (x = NZero \/ y = NZero) -> non_adjacent (l ++ [x; y]).
Proof.
  induction l as [|a l IH]; [cbn; tauto|]. intros H Hxy. destruct l as [|b l].
  - cbn in *. tauto.
  - cbn [app non_adjacent] in *. destruct H as [H1 H2]. split; [exact H1|]. apply IH; assumption.
Qed.
Lemma non_adjacent_tail a l : non_adjacent (a :: l) -> non_adjacent l.
Proof. destruct l; cbn; tauto. Qed.
Lemma non_adjacent_rev l : non_adjacent l -> non_adjacent (rev l).
Proof.
  induction l as [|a l IH]; [trivial|]. intros H. cbn [rev]. destruct l as [|b l].
  - cbn. exact I.
  - cbn [rev] in *. rewrite <- app_assoc. cbn [app]. apply non_adjacent_app.
    + apply IH. eapply non_adjacent_tail, H.
    + destruct H as [[H|H] _]; tauto.
Qed.
Lemma non_adjacent_skip f l : non_adjacent l -> non_adjacent (skip_while f l).
Proof. induction l as [|a l IH]; [trivial|]. intros H. cbn [skip_while]. destruct (f a); [apply IH; eapply non_adjacent_tail, H|exact H]. Qed.
Lemma non_adjacent_removelast l : non_adjacent l -> non_adjacent (removelast l).
Proof.
  induction l as [|a l IH]; [trivial|]. intros H. destruct l as [|b l]; [exact I|].
  destruct H as [H1 H2]. specialize (IH H2). cbn [removelast] in *. destruct l as [|c l]; [exact I|].
  cbn [non_adjacent]. split; assumption.
Qed.
Lemma skip_last_zero l x : skip_while (naf_eqb NZero) (l ++ [x]) =
  match skip_while (naf_eqb NZero) l with [] => if naf_eqb NZero x then [] else [x] | s => s ++ [x] end.
Proof.
  induction l as [|a l IH]; [reflexivity|]. cbn [app skip_while]. destruct (naf_eqb NZero a); [exact IH|reflexivity].
Qed.

Theorem to_nafs_spec a : wf a -> exists ds, to_nafs a = Some ds /\
  be_value 2 (map naf_val ds) = val a /\ non_adjacent ds /\
  (match ds with d :: _ => d <> NZero | [] => True end).
Proof.
  intros W. unfold to_nafs.
  destruct (naf_digits_spec (le_bits a ++ [0; 0]) 0) as (ds & cout & E & L & Hco & V & NA & Hd).
  { intros d Hd. apply in_app_or in Hd as [Hd|Hd]; [apply (le_bits_bit a), Hd|]. cbn in Hd. intuition. }
  { left. reflexivity. }
  rewrite E.
  rewrite lev_app, le_bits_lev, le_bits_length in V by exact W. rewrite app_length, le_bits_length in V, L. cbn [length] in L, V.
  change (lev 2 [0; 0]) with 0 in V. rewrite Z.mul_0_r, !Z.add_0_r in V.
  destruct ds as [|d0 ds]; [discriminate|].
  assert (D0 : d0 = NZero) by (apply Hd; discriminate). subst d0.
  (* the final carry is zero: |digits| < 2^258 - 1 leaves no room *)
  cbn [map] in V. rewrite lev_cons in V. cbn [naf_val] in V.
  assert (C0 : cout = 0).
  { destruct Hco as [-> _]. rewrite fold_left_app.
    assert (G : forall l c, (forall d, In d l -> d = 0 \/ d = 1) -> c = 0 \/ c = 1 \/ c = 2 ->
      let c' := fold_left (fun c b => (b * 3 + c) / 2) l c in c' = 0 \/ c' = 1 \/ c' = 2).
    { induction l as [|x l IH]; intros c Hl Hc; [exact Hc|]. cbn [fold_left]. apply IH.
      - intros; apply Hl; right; assumption.
      - destruct (Hl x (or_introl eq_refl)) as [->| ->], Hc as [->|[->| ->]]; cbn; auto. }
    destruct (G (le_bits a) 0 (le_bits_bit a) (or_introl eq_refl)) as [->|[->| ->]]; reflexivity. }
  subst cout. assert (V2 : lev 2 (map naf_val ds) = val a) by lia.
  eexists. split; [reflexivity|]. cbn [rev]. rewrite skip_last_zero. cbn [naf_eqb].
  set (s := skip_while (naf_eqb NZero) (rev ds)).
  assert (Es : removelast (match s with [] => [] | n :: l => (n :: l) ++ [NZero] end) = s).
  { destruct s as [|x s']; [reflexivity|]. apply removelast_last. }
  rewrite Es. split; [|split].
  - unfold s. rewrite skip_naf_value, map_rev, be_value_rev. exact V2.
  - apply non_adjacent_skip, non_adjacent_rev. eapply non_adjacent_tail, NA.
  - unfold s. clear. induction (rev ds) as [|x l IH]; [exact I|]. cbn [skip_while]. destruct x; cbn [naf_eqb]; try discriminate. exact IH.
Qed.
