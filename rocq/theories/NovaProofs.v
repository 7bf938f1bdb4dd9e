(** Vectors, commitments, folding and its cross term; bit sums and the conversions between the fields. *)
From Coq Require Import ZArith List Bool Lia Field.
From Verif Require Import Algebra GroupLib R1csModel R1csSpec R1csProofs Groth16Spec NovaModel NovaSpec.
Import ListNotations.
Local Open Scope fld_scope.

(** ** Vectors *)
Section Vec.
Variable F : Fld.
Add Field nvf : (kth F).
Lemma nth_map2 (f : F -> F -> F) (f0 : f 0 0 = 0) : forall a b : list F, length a = length b ->
  forall i, nth i (map (fun '(a, b) => f a b) (combine a b)) 0 = f (nth i a 0) (nth i b 0).
Proof.
  induction a as [|x a IH]; intros [|y b] L i; try discriminate; [destruct i; cbn; rewrite f0; reflexivity|].
  destruct i as [|i]; [reflexivity|]. cbn [combine map nth]. apply IH. cbn in L. congruence.
Qed.
Lemma length_map2 (f : F -> F -> F) (a b : list F) : length a = length b -> length (map (fun '(a, b) => f a b) (combine a b)) = length a.
Proof. intros L. rewrite map_length, combine_length, L. apply Nat.min_id. Qed.
Lemma vadd_ok (a b : list F) : length a = length b -> exists v, vadd a b = Some v /\ length v = length a /\ forall i, nth i v 0 = nth i a 0 + nth i b 0.
Proof.
  intros L. unfold vadd. rewrite L, Nat.eqb_refl. eexists. split; [reflexivity|]. rewrite (length_map2 kadd a b L). split; [exact L|].
  apply (nth_map2 kadd); [ring|exact L].
Qed.
Lemma vsub_ok (a b : list F) : length a = length b -> exists v, vsub a b = Some v /\ length v = length a /\ forall i, nth i v 0 = nth i a 0 - nth i b 0.
Proof.
  intros L. unfold vsub. rewrite L, Nat.eqb_refl. eexists. split; [reflexivity|]. rewrite (length_map2 ksub a b L). split; [exact L|].
  apply (nth_map2 ksub); [ring|exact L].
Qed.
Lemma had_ok (a b : list F) : length a = length b -> exists v, hadamard F a b = Some v /\ length v = length a /\ forall i, nth i v 0 = nth i a 0 * nth i b 0.
Proof.
  intros L. unfold hadamard. rewrite L, Nat.eqb_refl. eexists. split; [reflexivity|]. 
  rewrite (length_map2 kmul a b L). split; [exact L|]. apply (nth_map2 kmul); [ring|exact L].
Qed.
Lemma nth_vscale (a : list F) r i : nth i (vscale a r) 0 = nth i a 0 * r.
Proof. unfold vscale. revert i. induction a as [|x a IH]; intros [|i]; cbn [map nth]; [ring|ring|reflexivity|apply IH]. Qed.
Lemma length_vscale (a : list F) r : length (vscale a r) = length a. Proof. apply map_length. Qed.
Lemma nth_zeros n i : nth i (repeat (0 : F) n) 0 = 0.
Proof. revert i. induction n as [|n IH]; intros [|i]; cbn [repeat nth]; try reflexivity. apply IH. Qed.
Lemma list_ext (a b : list F) : length a = length b -> (forall i, nth i a 0 = nth i b 0) -> a = b.
Proof.
  revert b. induction a as [|x a IH]; intros [|y b] L H; try discriminate; [reflexivity|].
  pose proof (H O) as E. cbn [nth] in E. subst y. apply f_equal. apply IH; [cbn in L; congruence|]. intros i. exact (H (S i)).
Qed.
Lemma fold_vec_ok (a b : list F) r : length a = length b -> exists v, vadd a (vscale b r) = Some v /\ length v = length a /\ forall i, nth i v 0 = nth i a 0 + nth i b 0 * r.
Proof.
  intros L. destruct (vadd_ok a (vscale b r)) as (v & E & Lv & N); [rewrite length_vscale; exact L|].
  exists v. split; [exact E|]. split; [exact Lv|]. intros i. rewrite N, nth_vscale. reflexivity.
Qed.
Lemma all_eq_iff : forall a b : list F, length a = length b -> (all_eq a b = true <-> a = b).
Proof.
  unfold all_eq. induction a as [|x a IH]; intros [|y b] L; try discriminate; [cbn; tauto|].
  cbn [combine forallb]. rewrite andb_true_iff, (keqb_eq F), IH by (cbn in L; congruence).
  split; [intros [-> ->]; reflexivity|intros E; injection E; tauto].
Qed.

(** ** Assignments *)
Lemma nth_lc (s : asg F) (rows : list (row F)) i : nth i (map (lc s) rows) 0 = lc s (nth i rows []).
Proof. change (0 : F) with (lc s []). apply map_nth. Qed.
Lemma lc_comb (s s1 s2 : asg F) r (rw : row F) : (forall w, s w = s1 w + s2 w * r) -> lc s rw = lc s1 rw + lc s2 rw * r.
Proof.
  intros H. induction rw as [|[w c] l IH]; [rewrite !lc_nil; ring|]. rewrite !lc_cons, IH, H. ring.
Qed.
Lemma lc_ext (s s' : asg F) (rw : row F) : (forall w, s w = s' w) -> lc s rw = lc s' rw.
Proof. intros H. induction rw as [|[w c] l IH]; [reflexivity|]. rewrite !lc_cons, IH, H. reflexivity. Qed.
Lemma lc_scale (s s' : asg F) r (rw : row F) : (forall w, s w = s' w * r) -> lc s rw = lc s' rw * r.
Proof. intros H. induction rw as [|[w c] l IH]; [rewrite !lc_nil; ring|]. rewrite !lc_cons, IH, H. ring. Qed.
Lemma asg_comb (u1 u2 : F) (x1 x2 w1 w2 x w : list F) (r : F) : (forall i, nth i x 0 = nth i x1 0 + nth i x2 0 * r) -> (forall i, nth i w 0 = nth i w1 0 + nth i w2 0 * r) ->
  forall i, asg_of (u1 + u2 * r) x w i = asg_of u1 x1 w1 i + asg_of u2 x2 w2 i * r.
Proof. intros Hx Hw [[|i]|j]; cbn; [ring|apply Hx|apply Hw]. Qed.

(** ** The products *)
Variable sh : shape F.
Hypothesis W : wf_shape sh.
Lemma prods_ok u x w : length x = sh_l sh -> length w = sh_w sh ->
  prods sh u x w = Some (map (lc (asg_of u x w)) (sh_a sh), map (lc (asg_of u x w)) (sh_b sh), map (lc (asg_of u x w)) (sh_c sh)).
Proof.
  intros Lx Lw. destruct W as (LA & LB & LC & R). rewrite !Forall_app in R. destruct R as (RA & RB & RC).
  set (cs := mkR1cs (sh_m sh) (sh_a sh) (sh_b sh) (sh_c sh) (u :: x) w).
  assert (RR : forall r : row F, Forall (fun i => match i with Inst i => (i <= sh_l sh)%nat | Wit j => (j < sh_w sh)%nat end) (map fst r) -> Forall (in_range cs) (map fst r)).
  { intros r. apply Forall_impl. intros [i|j]; cbn; lia. }
  assert (OW : forall i, own cs i = asg_of u x w i).
  { intros [[|i]|j]; unfold own; cbn; [reflexivity| |]; (match goal with |- context [nth_error ?l ?i] => destruct (nth_error l i) eqn:E end; [symmetry; apply nth_error_nth; exact E|]);
    apply nth_error_None in E; rewrite nth_overflow by exact E; reflexivity. }
  assert (P : forall mat, length mat = sh_m sh -> Forall (fun r : row F => Forall (fun i => match i with Inst i => (i <= sh_l sh)%nat | Wit j => (j < sh_w sh)%nat end) (map fst r)) mat ->
    matrix_prod F mat (sh_m sh) (length x + 1) (u :: x ++ w) = Some (map (lc (asg_of u x w)) mat)).
  { intros mat L M. pose proof (matrix_prod_ok F cs mat L) as E. cbn [r_m r_x r_w cs length app] in E. rewrite Nat.add_1_r, E.
    - apply f_equal. apply map_ext. intros r. apply lc_ext, OW.
    - intros r I. apply RR. rewrite Forall_forall in M. apply M, I. }
  unfold prods. rewrite !P by assumption. reflexivity.
Qed.
Lemma relaxed_all u x w e : length e = sh_m sh -> (relaxed_holds sh u x w e <-> forall i,
  lc (asg_of u x w) (nth i (sh_a sh) []) * lc (asg_of u x w) (nth i (sh_b sh) []) = u * lc (asg_of u x w) (nth i (sh_c sh) []) + nth i e 0).
Proof.
  intros L. destruct W as (LA & LB & LC & _). split; intros H i; [|intros _; apply H].
  destruct (Nat.lt_ge_cases i (sh_m sh)) as [I|I]; [apply H, I|]. rewrite !(nth_overflow (A := row F)), (nth_overflow e), lc_nil by lia. ring.
Qed.
Lemma strict_all x w : strict_holds sh x w <-> forall i,
  lc (asg_of 1 x w) (nth i (sh_a sh) []) * lc (asg_of 1 x w) (nth i (sh_b sh) []) = lc (asg_of 1 x w) (nth i (sh_c sh) []).
Proof.
  unfold strict_holds. rewrite relaxed_all by apply repeat_length. split; intros H i; [rewrite H|rewrite H]; rewrite nth_zeros; ring.
Qed.
End Vec.

(** ** Bits *)
Fixpoint lev (l : list bool) : Z := match l with [] => 0 | b :: l => Z.b2z b + 2 * lev l end.
Lemma lev_rev l : lev (rev l) = bval l.
Proof.
  assert (A : forall l b, lev (l ++ [b]) = (lev l + Z.b2z b * 2 ^ Z.of_nat (length l))%Z).
  { clear. induction l as [|c l IH]; intros b; [cbn; destruct b; reflexivity|]. cbn [app lev]. rewrite IH. cbn [length].
    rewrite Nat2Z.inj_succ, Z.pow_succ_r by lia. ring. }
  induction l as [|b l IH]; [reflexivity|]. cbn [rev bval]. rewrite A, IH, rev_length. lia.
Qed.
Lemma lev_range l : (0 <= lev l < 2 ^ Z.of_nat (length l))%Z.
Proof. induction l as [|b l IH]; [cbn; lia|]. cbn [lev length]. rewrite Nat2Z.inj_succ, Z.pow_succ_r by lia. destruct b; cbn [Z.b2z]; lia. Qed.
Lemma lev_firstn : forall n l, lev (firstn n l) = (lev l mod 2 ^ Z.of_nat n)%Z.
Proof.
  induction n as [|n IH]; intros l; [cbn [firstn lev]; change (2 ^ Z.of_nat 0)%Z with 1%Z; rewrite Z.mod_1_r; reflexivity|].
  destruct l as [|b l]; [cbn [firstn lev]; rewrite Z.mod_0_l by (apply Z.pow_nonzero; lia); reflexivity|].
  cbn [firstn lev]. rewrite IH, Nat2Z.inj_succ, Z.pow_succ_r by lia.
  assert (P : (0 < 2 ^ Z.of_nat n)%Z) by (apply Z.pow_pos_nonneg; lia). rewrite (Z.rem_mul_r _ 2) by lia.
  replace ((Z.b2z b + 2 * lev l) / 2)%Z with (lev l) by (rewrite Z.add_comm, Z.mul_comm, Z.div_add_l by lia; destruct b; cbn; lia).
  replace ((Z.b2z b + 2 * lev l) mod 2)%Z with (Z.b2z b) by (rewrite Z.add_comm, Z.mul_comm, Z.add_comm, Z.mod_add by lia; destruct b; reflexivity). reflexivity.
Qed.
Section Bits.
Variables (F : Fld) (val : F -> Z) (p : Z) (bits : F -> list bool) (pow2 : nat -> F) (md : F) (nb : nat).
Hypothesis CF : circuit_field F val p bits pow2 md nb.
Lemma bits_loop_val : forall l (m v : F), val (bits_loop l m v) = ((val v + val m * lev l) mod p)%Z.
Proof.
  pose proof (cf_p _ _ _ _ _ _ _ CF) as Hp.
  induction l as [|b l IH]; intros m v; cbn [bits_loop lev].
  - rewrite Z.mul_0_r, Z.add_0_r. symmetry. apply Z.mod_small, (cf_range _ _ _ _ _ _ _ CF).
  - rewrite IH, (cf_add _ _ _ _ _ _ _ CF). rewrite Zplus_mod, Zmult_mod_idemp_l, <- Zplus_mod.
    destruct b; cbn [Z.b2z].
    + rewrite (cf_add _ _ _ _ _ _ _ CF), Zplus_mod_idemp_l. f_equal. ring.
    + f_equal. ring.
Qed.
Lemma bits_sum_val l : val (bits_loop l 1 0) = (lev l mod p)%Z.
Proof. rewrite bits_loop_val, (cf_zero _ _ _ _ _ _ _ CF), (cf_one _ _ _ _ _ _ _ CF). f_equal. ring. Qed.
Lemma cf_two_neq : (1 + 1 : F) <> 0.
Proof.
  intros E. apply (f_equal val) in E. rewrite (cf_add _ _ _ _ _ _ _ CF), (cf_one _ _ _ _ _ _ _ CF), (cf_zero _ _ _ _ _ _ _ CF) in E.
  pose proof (cf_p _ _ _ _ _ _ _ CF) as Hp. rewrite Z.mod_small in E; [discriminate|]. pose proof (Z.pow_le_mono_r 2 2 253). change (2 ^ 2)%Z with 4%Z in *. lia.
Qed.
End Bits.
Section Transfer.
Variables (A B : pfield) (p q : Z).
Hypothesis OA : field_ok A p.
Hypothesis OB : field_ok B q.
Lemma transfer_val x : pf_val B (transfer A B x) = (pf_val A x mod q)%Z.
Proof.
  unfold transfer. rewrite (bits_sum_val _ _ _ _ _ _ _ (fo_cf _ _ OB)), lev_rev, (cf_bits _ _ _ _ _ _ _ (fo_cf _ _ OA)). reflexivity.
Qed.
Lemma squeeze_val st n : pf_val B (squeeze A B st n) = ((pf_val A (mimc_absorb (pf_consts A) st) mod 2 ^ Z.of_nat n) mod q)%Z.
Proof.
  unfold squeeze. rewrite (bits_sum_val _ _ _ _ _ _ _ (fo_cf _ _ OB)), lev_firstn, lev_rev, (cf_bits _ _ _ _ _ _ _ (fo_cf _ _ OA)). reflexivity.
Qed.
End Transfer.

(** ** Limbs of a field element *)
Lemma bit_count_le n k : (0 <= n < 2 ^ k)%Z -> (0 <= k)%Z -> (bit_count n <= k)%Z.
Proof.
  intros H K. unfold bit_count. destruct (Z.eqb_spec n 0) as [->|N]; [exact K|]. rewrite Z.abs_eq by lia.
  assert (Z.log2 n < k)%Z; [|lia]. apply Z.log2_lt_pow2; lia.
Qed.
Lemma bit_count_gt n k : (2 ^ k <= n)%Z -> (0 <= k)%Z -> (k < bit_count n)%Z.
Proof.
  intros H K. assert (0 < 2 ^ k)%Z by (apply Z.pow_pos_nonneg; lia). unfold bit_count. destruct (Z.eqb_spec n 0) as [->|N]; [lia|]. rewrite Z.abs_eq by lia.
  assert (k <= Z.log2 n)%Z; [|lia]. apply Z.log2_le_pow2; lia.
Qed.
Lemma signed_len_fits n : (0 <= n)%Z -> (n < 2 ^ (8 * signed_len n))%Z.
Proof.
  intros H. unfold signed_len. destruct (Z.ltb_spec n 0); [lia|]. set (k := bit_count n).
  assert (L : (n < 2 ^ k)%Z).
  { unfold k, bit_count. destruct (Z.eqb_spec n 0) as [->|N]; [reflexivity|]. rewrite Z.abs_eq by lia. pose proof (Z.log2_spec n ltac:(lia)) as LS. rewrite Z.add_1_r. lia. }
  assert (0 <= k)%Z. { unfold k, bit_count. destruct (n =? 0)%Z; [lia|]. pose proof (Z.log2_nonneg (Z.abs n)). lia. }
  eapply Z.lt_le_trans; [exact L|]. apply Z.pow_le_mono_r; [lia|]. pose proof (Z.div_mod k 8). pose proof (Z.mod_pos_bound k 8). lia.
Qed.
Lemma nat_to_f_ok (F : pfield) n : (0 <= n < 2 ^ 511)%Z -> nat_to_f F n = Some (pf_of F n).
Proof.
  intros H. unfold nat_to_f. assert (signed_len n <= 64)%Z.
  { unfold signed_len. destruct (Z.ltb_spec n 0); [lia|]. pose proof (bit_count_le n 511 H ltac:(lia)). pose proof (Z.div_lt_upper_bound (bit_count n) 8 64). lia. }
  destruct (Z.ltb_spec 64 (signed_len n)); [lia|]. rewrite Z.mod_small; [reflexivity|]. split; [apply H|apply signed_len_fits, H].
Qed.
(** The digits of [n] in base [2^w]. *)
Fixpoint digits (w : nat) (n : Z) (k : nat) : list Z :=
  match k with O => [] | S k => (n mod 2 ^ Z.of_nat w)%Z :: digits w (n / 2 ^ Z.of_nat w) k end.
Lemma limbs_loop_ok (F : pfield) w : (w <= 511)%nat -> forall k n, (0 <= n)%Z -> limbs_loop F n w k = Some (map (pf_of F) (digits w n k)).
Proof.
  intros Hw. induction k as [|k IH]; intros n Hn; [reflexivity|]. cbn [limbs_loop digits map].
  unfold int_with_n_ones. replace (2 ^ Z.of_nat w - 1)%Z with (Z.ones (Z.of_nat w)) by (rewrite Z.ones_equiv; lia).
  rewrite Z.land_ones, Z.shiftr_div_pow2 by lia. assert (P : (0 < 2 ^ Z.of_nat w)%Z) by (apply Z.pow_pos_nonneg; lia).
  rewrite nat_to_f_ok, IH; [reflexivity|apply Z.div_pos; lia|]. pose proof (Z.mod_pos_bound n _ P). split; [lia|].
  eapply Z.lt_le_trans; [apply H|]. apply Z.pow_le_mono_r; lia.
Qed.
Lemma nat_to_limbs_ok (F : pfield) w k n : (w <= 511)%nat -> (0 <= n < 2 ^ (Z.of_nat k * Z.of_nat w))%Z -> nat_to_limbs F n w k = Some (map (pf_of F) (digits w n k)).
Proof.
  intros Hw H. unfold nat_to_limbs. pose proof (bit_count_le n _ H ltac:(lia)). destruct (Z.leb_spec (bit_count n) (Z.of_nat k * Z.of_nat w)); [|lia].
  apply limbs_loop_ok; [exact Hw|apply H].
Qed.

(** ** Commitments and folding *)
Section Nova.
Variables (B S : pfield) (C : driver B S).
Add Field npf : (kth S).
Notation pt := (d_pt C).
Local Infix "+!" := aadd (at level 50, left associativity).
Lemma commit_sum g m : commit C g m = asum (map (fun '(v, e) => d_mul C e v) (combine m g)).
Proof.
  unfold commit. assert (E : forall l a, fold_left (fun sum '(v, e) => sum +! d_mul C e v) l a = a +! asum (map (fun '(v, e) => d_mul C e v) l)).
  { induction l as [|[v e] l IH]; intros a; [cbn; rewrite aid_r; reflexivity|]. cbn [fold_left map asum fold_right]. rewrite IH. rewrite <- aassoc. reflexivity. }
  rewrite E. apply aid.
Qed.
Lemma commit_cons g0 g v m : commit C (g0 :: g) (v :: m) = d_mul C g0 v +! commit C g m.
Proof. rewrite !commit_sum. reflexivity. Qed.
Lemma commit_nil_l m : commit C [] m = a0. Proof. rewrite commit_sum. destruct m; reflexivity. Qed.
Lemma commit_nil_r g : commit C g [] = a0. Proof. rewrite commit_sum. reflexivity. Qed.
Hypothesis ML : module_laws S pt (d_mul C).
Lemma mul_0_r x : d_mul C x 0 = a0.
Proof.
  destruct ML as (A & _). apply (acancel pt (d_mul C x 0)). rewrite <- A, aid_r. apply f_equal. ring.
Qed.
Lemma mul_0_l r : d_mul C a0 r = a0.
Proof. destruct ML as (_ & A & _). apply (acancel pt (d_mul C a0 r)). rewrite <- A, aid, aid_r. reflexivity. Qed.
Lemma commit_zeros g n : commit C g (repeat 0 n) = a0.
Proof. revert g. induction n as [|n IH]; intros [|g0 g]; cbn [repeat]; rewrite ?commit_nil_l, ?commit_nil_r; try reflexivity. rewrite commit_cons, IH, mul_0_r. apply aid. Qed.
Lemma commit_comb g : forall v a b r, length v = length a -> length a = length b -> (forall i, nth i v 0 = nth i a 0 + nth i b 0 * r) ->
  commit C g v = commit C g a +! d_mul C (commit C g b) r.
Proof.
  pose proof ML as (M1 & M2 & M3 & _). induction g as [|g0 g IH]; intros v a b r L1 L2 H; [rewrite !commit_nil_l, mul_0_l, aid; reflexivity|].
  destruct v as [|v0 v], a as [|a1 a], b as [|b0 b]; try discriminate; [rewrite !commit_nil_r, mul_0_l, aid; reflexivity|].
  rewrite !commit_cons, (IH v a b r) by (try (cbn in *; congruence); intros i; exact (H (Datatypes.S i))).
  pose proof (H O) as E. cbn [nth] in E. rewrite E, M1, M2, M3. apply aswap.
Qed.
Lemma commit_scale g : forall v a r, length v = length a -> (forall i, nth i v 0 = nth i a 0 * r) -> commit C g v = d_mul C (commit C g a) r.
Proof.
  intros v a r L H. rewrite (commit_comb g v (repeat 0 (length a)) a r), commit_zeros, aid; [reflexivity|rewrite repeat_length; exact L|apply repeat_length|].
  intros i. rewrite H, nth_zeros. ring.
Qed.

(** Folding two pairs. *)
Variable sh : shape S.
Hypothesis W : wf_shape sh.
Notation la x w u i := (lc (asg_of u x w) (nth i (sh_a sh) [])).
Notation lb x w u i := (lc (asg_of u x w) (nth i (sh_b sh) [])).
Notation lz x w u i := (lc (asg_of u x w) (nth i (sh_c sh) [])).
Lemma cross_ok (U : rinst C) (V : rwit S) (i2 : inst C) (w2 : list S) : sized sh U V -> length (i_x i2) = sh_l sh -> length w2 = sh_w sh ->
  exists t, compute_cross_term sh U V i2 w2 = Some t /\ length t = sh_m sh /\
    forall i, nth i t 0 = la (i_x i2) w2 1 i * lb (ri_x U) (rw_w V) (ri_u U) i + la (ri_x U) (rw_w V) (ri_u U) i * lb (i_x i2) w2 1 i
                          - ri_u U * lz (i_x i2) w2 1 i - lz (ri_x U) (rw_w V) (ri_u U) i.
Proof.
  intros (L1 & L2 & L3) L4 L5. pose proof W as (LA & LB & LC & _). unfold compute_cross_term. rewrite !(prods_ok S sh W) by assumption.
  set (s1 := asg_of (ri_u U) (ri_x U) (rw_w V)). set (s2 := asg_of 1 (i_x i2) w2).
  destruct (had_ok S (map (lc s2) (sh_a sh)) (map (lc s1) (sh_b sh))) as (h1 & -> & Lh1 & N1); [rewrite !map_length; congruence|].
  destruct (had_ok S (map (lc s1) (sh_a sh)) (map (lc s2) (sh_b sh))) as (h2 & -> & Lh2 & N2); [rewrite !map_length; congruence|].
  rewrite map_length, LA in Lh1, Lh2.
  destruct (vadd_ok S h1 h2) as (h3 & -> & Lh3 & N3); [congruence|].
  destruct (vsub_ok S h3 (vscale (map (lc s2) (sh_c sh)) (ri_u U))) as (h4 & -> & Lh4 & N4); [rewrite length_vscale, map_length; congruence|].
  destruct (vsub_ok S h4 (vscale (map (lc s1) (sh_c sh)) 1)) as (h5 & -> & Lh5 & N5); [rewrite length_vscale, map_length; congruence|].
  exists h5. split; [reflexivity|]. split; [congruence|]. intros i. rewrite N5, N4, N3, N2, N1, !nth_vscale, !nth_lc. ring.
Qed.
Lemma fold_inst_ok (U : rinst C) (i2 : inst C) r T : length (ri_x U) = length (i_x i2) ->
  exists U', fold_inst U i2 r T = Some U' /\ ri_u U' = ri_u U + r /\ ri_w U' = ri_w U +! d_mul C (i_w i2) r /\ ri_e U' = ri_e U +! d_mul C T r /\
    length (ri_x U') = length (ri_x U) /\ forall i, nth i (ri_x U') 0 = nth i (ri_x U) 0 + nth i (i_x i2) 0 * r.
Proof.
  intros L. unfold fold_inst. destruct (fold_vec_ok S (ri_x U) (i_x i2) r L) as (x & -> & Lx & N). eexists. split; [reflexivity|]. cbn. tauto.
Qed.
Lemma fold_wit_ok (V : rwit S) (w2 : list S) r t : length (rw_w V) = length w2 -> length (rw_e V) = length t ->
  exists V', fold_wit V w2 r t = Some V' /\ length (rw_w V') = length (rw_w V) /\ length (rw_e V') = length (rw_e V) /\
    (forall i, nth i (rw_w V') 0 = nth i (rw_w V) 0 + nth i w2 0 * r) /\ (forall i, nth i (rw_e V') 0 = nth i (rw_e V) 0 + nth i t 0 * r).
Proof.
  intros L1 L2. unfold fold_wit. destruct (fold_vec_ok S (rw_e V) t r L2) as (e & -> & Le & Ne). destruct (fold_vec_ok S (rw_w V) w2 r L1) as (w & -> & Lw & Nw).
  eexists. split; [reflexivity|]. cbn. tauto.
Qed.
Lemma fold_preserves (g : list pt) (U : rinst C) (V : rwit S) (i2 : inst C) (w2 : list S) : relaxed_pair sh g U V -> strict_pair sh g i2 w2 ->
  exists t, compute_cross_term sh U V i2 w2 = Some t /\ forall r, exists U' V',
    fold_inst U i2 r (commit C g t) = Some U' /\ fold_wit V w2 r t = Some V' /\ relaxed_pair sh g U' V'.
Proof.
  intros (SZ & H1 & O1 & O2) (L4 & L5 & H2 & O3). pose proof SZ as (L1 & L2 & L3).
  destruct (cross_ok U V i2 w2 SZ L4 L5) as (t & Et & Lt & Nt). exists t. split; [exact Et|]. intros r.
  destruct (fold_inst_ok U i2 r (commit C g t)) as (U' & EU & Eu & Ew & Ee & Lx & Nx); [congruence|].
  destruct (fold_wit_ok V w2 r t) as (V' & EV & Lw & Le & Nw & Ne); [congruence|congruence|].
  exists U', V'. split; [exact EU|]. split; [exact EV|]. split; [split; [congruence|]; split; congruence|].
  split; [|split].
  - rewrite (relaxed_all S sh W) in * by congruence. rewrite (strict_all S sh W) in H2. intros i.
    assert (AC : forall w, asg_of (ri_u U') (ri_x U') (rw_w V') w = asg_of (ri_u U) (ri_x U) (rw_w V) w + asg_of 1 (i_x i2) w2 w * r).
    { intros w. rewrite <- (asg_comb S (ri_u U) 1 (ri_x U) (i_x i2) (rw_w V) w2 (ri_x U') (rw_w V') r Nx Nw). rewrite Eu. replace (ri_u U + 1 * r) with (ri_u U + r) by ring. reflexivity. }
    rewrite !(lc_comb S _ _ _ r _ AC), Ne, Nt, Eu. specialize (H1 i). specialize (H2 i).
    match type of H1 with ?l * ?m = _ * ?n + _ => set (a1 := l) in *; set (b1 := m) in *; set (c1 := n) in * end.
    match type of H2 with ?l * ?m = ?n => set (a2 := l) in *; set (b2 := m) in *; set (c2 := n) in * end.
    transitivity (a1 * b1 + (a1 * b2 + a2 * b1) * r + (a2 * b2) * (r * r)); [ring|]. rewrite H1, H2. ring.
  - rewrite Ew, O1, O3. symmetry. apply commit_comb; [congruence|congruence|exact Nw].
  - rewrite Ee, O2. symmetry. apply commit_comb; [congruence|congruence|exact Ne].
Qed.

(** A quadratic with three roots vanishes. *)
Lemma quadratic (a b c r1 r2 r3 : S) : r1 <> r2 -> r1 <> r3 -> r2 <> r3 ->
  a + b * r1 + c * (r1 * r1) = 0 -> a + b * r2 + c * (r2 * r2) = 0 -> a + b * r3 + c * (r3 * r3) = 0 -> a = 0 /\ c = 0.
Proof.
  intros N12 N13 N23 H1 H2 H3.
  assert (P : forall x y : S, x <> y -> a + b * x + c * (x * x) = 0 -> a + b * y + c * (y * y) = 0 -> b + c * (x + y) = 0).
  { intros x y N Hx Hy. assert (E : (x - y) * (b + c * (x + y)) = 0).
    { transitivity ((a + b * x + c * (x * x)) - (a + b * y + c * (y * y))); [ring|]. rewrite Hx, Hy. ring. }
    destruct (kmul_eq0 S _ _ E) as [D|D]; [|exact D]. exfalso. apply N. apply (proj1 (ksub_eq0 S _ _)) in D. exact D. }
  pose proof (P r1 r2 N12 H1 H2) as E12. pose proof (P r1 r3 N13 H1 H3) as E13.
  assert (Ec : (r2 - r3) * c = 0). { transitivity ((b + c * (r1 + r2)) - (b + c * (r1 + r3))); [ring|]. rewrite E12, E13. ring. }
  assert (c = 0) as ->. { destruct (kmul_eq0 S _ _ Ec) as [D|D]; [|exact D]. exfalso. apply N23. apply (proj1 (ksub_eq0 S _ _)) in D. exact D. }
  assert (b = 0) as ->. { etransitivity; [|exact E12]. ring. }
  split; [|reflexivity]. etransitivity; [|exact H1]. ring.
Qed.
(** The line through two vectors. *)
Definition slope (v1 v2 : list S) (r1 r2 : S) : list S := map (fun '(a, b) => (a - b) * kinv (r1 - r2)) (combine v1 v2).
Definition base (v1 v2 : list S) (r1 r2 : S) : list S := map (fun '(a, b) => a - r1 * ((a - b) * kinv (r1 - r2))) (combine v1 v2).
Lemma nth_slope (v1 v2 : list S) (r1 r2 : S) i : length v1 = length v2 -> nth i (slope v1 v2 r1 r2) 0 = (nth i v1 0 - nth i v2 0) * kinv (r1 - r2).
Proof. intros L. apply (nth_map2 S (fun a b => (a - b) * kinv (r1 - r2))); [ring|exact L]. Qed.
Lemma nth_base (v1 v2 : list S) (r1 r2 : S) i : length v1 = length v2 -> nth i (base v1 v2 r1 r2) 0 = nth i v1 0 - r1 * ((nth i v1 0 - nth i v2 0) * kinv (r1 - r2)).
Proof. intros L. apply (nth_map2 S (fun a b => a - r1 * ((a - b) * kinv (r1 - r2)))); [ring|exact L]. Qed.
Lemma line_at (v1 v2 : list S) (r1 r2 : S) : r1 <> r2 -> length v1 = length v2 ->
  (forall i, nth i v1 0 = nth i (base v1 v2 r1 r2) 0 + nth i (slope v1 v2 r1 r2) 0 * r1) /\
  (forall i, nth i v2 0 = nth i (base v1 v2 r1 r2) 0 + nth i (slope v1 v2 r1 r2) 0 * r2).
Proof.
  intros N L. assert (D : r1 - r2 <> 0) by (intros E; apply (proj1 (ksub_eq0 S _ _)) in E; exact (N E)).
  split; intros i; rewrite nth_slope, nth_base by exact L; [ring|]. field. exact D.
Qed.
Lemma length_slope (v1 v2 : list S) (r1 r2 : S) : length v1 = length v2 -> length (slope v1 v2 r1 r2) = length v1.
Proof. apply (length_map2 S (fun a b => (a - b) * kinv (r1 - r2))). Qed.
Lemma length_base (v1 v2 : list S) (r1 r2 : S) : length v1 = length v2 -> length (base v1 v2 r1 r2) = length v1.
Proof. apply (length_map2 S (fun a b => a - r1 * ((a - b) * kinv (r1 - r2)))). Qed.
Lemma module_cancel (P Q : pt) (r : S) : r <> 0 -> d_mul C P r = d_mul C Q r -> P = Q.
Proof.
  intros N E. destruct ML as (_ & _ & M3 & M4). apply (f_equal (fun X => d_mul C X (kinv r))) in E. rewrite !M3 in E.
  replace (r * kinv r) with (1 : S) in E by (field; exact N). rewrite !M4 in E. exact E.
Qed.
(** The points on a line are determined by two of them. *)
Lemma line_points (P Q X1 X2 : pt) (r1 r2 : S) (X0 Xd : pt) : r1 <> r2 -> X1 = P +! d_mul C Q r1 -> X2 = P +! d_mul C Q r2 ->
  X1 = X0 +! d_mul C Xd r1 -> X2 = X0 +! d_mul C Xd r2 -> Q = Xd /\ P = X0.
Proof.
  intros N E1 E2 E3 E4. pose proof ML as (M1 & M2 & M3 & M4).
  assert (NEG : forall X r, d_mul C X (- r) = aneg (d_mul C X r)).
  { intros X r. apply aneg_unique. rewrite <- M1. rewrite <- (mul_0_r X). apply f_equal. ring. }
  assert (D : forall A1 A2 : pt, A1 = P +! d_mul C Q r1 -> A2 = P +! d_mul C Q r2 -> A1 +! aneg A2 = d_mul C Q (r1 - r2)).
  { intros A1 A2 -> ->. replace (r1 - r2) with (r1 + - r2) by ring. rewrite M1, NEG, aneg_add, aswap, ainv, aid. reflexivity. }
  assert (D' : X1 +! aneg X2 = d_mul C Xd (r1 - r2)).
  { rewrite E3, E4. replace (r1 - r2) with (r1 + - r2) by ring. rewrite M1, NEG, aneg_add, aswap, ainv, aid. reflexivity. }
  rewrite (D X1 X2 E1 E2) in D'. assert (r1 - r2 <> 0) as ND by (intros E; apply (proj1 (ksub_eq0 S _ _)) in E; exact (N E)).
  pose proof (module_cancel _ _ _ ND D') as EQ. split; [exact EQ|]. subst Xd. rewrite E1 in E3.
  apply (acancel pt (d_mul C Q r1)). rewrite !(acomm pt (d_mul C Q r1)). exact E3.
Qed.
Lemma special_sound (g : list pt) (U : rinst C) (i2 : inst C) (T : pt) (r1 r2 r3 : S) U1 U2 U3 V1 V2 V3 :
  r1 <> r2 -> r1 <> r3 -> r2 <> r3 ->
  fold_inst U i2 r1 T = Some U1 -> fold_inst U i2 r2 T = Some U2 -> fold_inst U i2 r3 T = Some U3 ->
  relaxed_pair sh g U1 V1 -> relaxed_pair sh g U2 V2 -> relaxed_pair sh g U3 V3 ->
  collision C g \/ (relaxed_pair sh g U (mkRwit (base (rw_w V1) (rw_w V2) r1 r2) (base (rw_e V1) (rw_e V2) r1 r2)) /\ strict_pair sh g i2 (slope (rw_w V1) (rw_w V2) r1 r2)).
Proof.
  intros N12 N13 N23 F1 F2 F3 (S1 & H1 & Ow1 & Oe1) (S2 & H2 & Ow2 & Oe2) (S3 & H3 & Ow3 & Oe3).
  destruct S1 as (X1 & W1 & E1), S2 as (X2 & W2 & E2), S3 as (X3 & W3 & E3).
  assert (LX : length (ri_x U) = length (i_x i2)).
  { unfold fold_inst, vadd in F1. rewrite length_vscale in F1. destruct (Nat.eqb_spec (length (ri_x U)) (length (i_x i2))) as [E|E]; [exact E|discriminate]. }
  assert (FF : forall r X, fold_inst U i2 r T = Some X -> ri_u X = ri_u U + r /\ ri_w X = ri_w U +! d_mul C (i_w i2) r /\ ri_e X = ri_e U +! d_mul C T r /\
    length (ri_x X) = length (ri_x U) /\ forall i, nth i (ri_x X) 0 = nth i (ri_x U) 0 + nth i (i_x i2) 0 * r).
  { intros r X E. destruct (fold_inst_ok U i2 r T LX) as (X' & E' & R). rewrite E' in E. injection E as <-. exact R. }
  destruct (FF _ _ F1) as (u1 & fw1 & fe1 & lx1 & nx1). destruct (FF _ _ F2) as (u2 & fw2 & fe2 & lx2 & nx2). destruct (FF _ _ F3) as (u3 & fw3 & fe3 & lx3 & nx3). clear FF.
  assert (LW : length (rw_w V1) = length (rw_w V2)) by congruence. assert (LE : length (rw_e V1) = length (rw_e V2)) by congruence.
  set (w := base (rw_w V1) (rw_w V2) r1 r2). set (w2 := slope (rw_w V1) (rw_w V2) r1 r2).
  set (e := base (rw_e V1) (rw_e V2) r1 r2). set (t := slope (rw_e V1) (rw_e V2) r1 r2).
  destruct (line_at (rw_w V1) (rw_w V2) r1 r2 N12 LW) as [nw1 nw2]. destruct (line_at (rw_e V1) (rw_e V2) r1 r2 N12 LE) as [ne1 ne2].
  assert (Lw : length w = sh_w sh) by (unfold w; rewrite length_base; congruence). assert (Lw2 : length w2 = sh_w sh) by (unfold w2; rewrite length_slope; congruence).
  assert (Le : length e = sh_m sh) by (unfold e; rewrite length_base; congruence). assert (Lt : length t = sh_m sh) by (unfold t; rewrite length_slope; congruence).
  fold w w2 in nw1, nw2. fold e t in ne1, ne2.
  destruct (line_points (ri_w U) (i_w i2) (ri_w U1) (ri_w U2) r1 r2 (commit C g w) (commit C g w2) N12 fw1 fw2) as [Cw2 Cw];
    [rewrite Ow1; apply commit_comb; [congruence|congruence|exact nw1]|rewrite Ow2; apply commit_comb; [congruence|congruence|exact nw2]|].
  destruct (line_points (ri_e U) T (ri_e U1) (ri_e U2) r1 r2 (commit C g e) (commit C g t) N12 fe1 fe2) as [Ct Ce];
    [rewrite Oe1; apply commit_comb; [congruence|congruence|exact ne1]|rewrite Oe2; apply commit_comb; [congruence|congruence|exact ne2]|].
  (* the third transcript *)
  destruct (fold_vec_ok S w w2 r3) as (w3 & _ & Lw3 & nw3); [congruence|]. destruct (fold_vec_ok S e t r3) as (e3 & _ & Le3 & ne3); [congruence|].
  assert (Cw3 : commit C g (rw_w V3) = commit C g w3). { rewrite <- Ow3, fw3, Cw, Cw2. symmetry. apply commit_comb; [congruence|congruence|exact nw3]. }
  assert (Ce3 : commit C g (rw_e V3) = commit C g e3). { rewrite <- Oe3, fe3, Ce, Ct. symmetry. apply commit_comb; [congruence|congruence|exact ne3]. }
  assert (DEC : forall a b : list S, a = b \/ a <> b).
  { intros a b. destruct (list_eq_dec (fun x y : S => kdec S x y) a b); tauto. }
  destruct (DEC (rw_w V3) w3) as [EW|NW]; [|left; exists (rw_w V3), w3; split; [congruence|]; split; [exact NW|exact Cw3]].
  destruct (DEC (rw_e V3) e3) as [EE|NE]; [|left; exists (rw_e V3), e3; split; [congruence|]; split; [exact NE|exact Ce3]].
  right. rewrite (relaxed_all S sh W) in H1, H2, H3 by assumption.
  assert (KEY : forall i,
    la (ri_x U) w (ri_u U) i * lb (ri_x U) w (ri_u U) i - ri_u U * lz (ri_x U) w (ri_u U) i - nth i e 0 = 0 /\
    la (i_x i2) w2 1 i * lb (i_x i2) w2 1 i - lz (i_x i2) w2 1 i = 0).
  { intros i. specialize (H1 i). specialize (H2 i). specialize (H3 i).
    assert (AC : forall r (Uk : rinst C) (Vk : rwit S), ri_u Uk = ri_u U + r -> (forall i, nth i (ri_x Uk) 0 = nth i (ri_x U) 0 + nth i (i_x i2) 0 * r) -> (forall i, nth i (rw_w Vk) 0 = nth i w 0 + nth i w2 0 * r) ->
       forall v, asg_of (ri_u Uk) (ri_x Uk) (rw_w Vk) v = asg_of (ri_u U) (ri_x U) w v + asg_of 1 (i_x i2) w2 v * r).
    { intros r Uk Vk Hu Hx Hw v. rewrite <- (asg_comb S (ri_u U) 1 (ri_x U) (i_x i2) w w2 (ri_x Uk) (rw_w Vk) r Hx Hw). rewrite Hu. replace (ri_u U + 1 * r) with (ri_u U + r) by ring. reflexivity. }
    rewrite !(lc_comb S _ _ _ r1 _ (AC r1 U1 V1 u1 nx1 nw1)), ne1, u1 in H1. rewrite !(lc_comb S _ _ _ r2 _ (AC r2 U2 V2 u2 nx2 nw2)), ne2, u2 in H2.
    assert (nw3' : forall i, nth i (rw_w V3) 0 = nth i w 0 + nth i w2 0 * r3) by (rewrite EW; exact nw3).
    rewrite !(lc_comb S _ _ _ r3 _ (AC r3 U3 V3 u3 nx3 nw3')), EE, ne3, u3 in H3.
    generalize dependent (la (ri_x U) w (ri_u U) i). generalize dependent (lb (ri_x U) w (ri_u U) i). generalize dependent (lz (ri_x U) w (ri_u U) i).
    generalize dependent (la (i_x i2) w2 1 i). generalize dependent (lb (i_x i2) w2 1 i). generalize dependent (lz (i_x i2) w2 1 i).
    intros c2 b2 a2 c1 b1 a1 H1 H2 H3. clear - H1 H2 H3 N12 N13 N23.
    apply (quadratic _ (a1 * b2 + a2 * b1 - ri_u U * c2 - c1 - nth i t 0) _ r1 r2 r3 N12 N13 N23).
    - apply (proj2 (ksub_eq0 S _ _)) in H1. etransitivity; [|exact H1]. ring.
    - apply (proj2 (ksub_eq0 S _ _)) in H2. etransitivity; [|exact H2]. ring.
    - apply (proj2 (ksub_eq0 S _ _)) in H3. etransitivity; [|exact H3]. ring. }
  split.
  - split; [split; [congruence|split; assumption]|]. cbn [rw_w rw_e]. split; [|split; [exact Cw|exact Ce]].
    apply (relaxed_all S sh W); [exact Le|]. intros i. destruct (KEY i) as [K _]. apply (proj1 (ksub_eq0 S _ _)). etransitivity; [|exact K]. ring.
  - split; [congruence|]. split; [exact Lw2|]. split; [|exact Cw2]. apply (strict_all S sh W). intros i. destruct (KEY i) as [_ K].
    apply (proj1 (ksub_eq0 S _ _)). exact K.
Qed.

(** ** Satisfaction checks *)
Lemma is_sat_relaxed_ok (U : rinst C) (V : rwit S) : sized sh U V ->
  exists b, is_sat_relaxed sh U V = Some b /\ (b = true <-> relaxed_holds sh (ri_u U) (ri_x U) (rw_w V) (rw_e V)).
Proof.
  intros (L1 & L2 & L3). pose proof W as (LA & LB & LC & _). unfold is_sat_relaxed. rewrite (prods_ok S sh W) by assumption.
  set (s := asg_of (ri_u U) (ri_x U) (rw_w V)).
  destruct (had_ok S (map (lc s) (sh_a sh)) (map (lc s) (sh_b sh))) as (h & -> & Lh & Nh); [rewrite !map_length; congruence|].
  destruct (vadd_ok S (vscale (map (lc s) (sh_c sh)) (ri_u U)) (rw_e V)) as (v & -> & Lv & Nv); [rewrite length_vscale, map_length; congruence|].
  rewrite map_length in Lh. rewrite length_vscale, map_length in Lv. eexists. split; [reflexivity|].
  rewrite all_eq_iff, (relaxed_all S sh W) by congruence. split.
  - intros E i. fold s. apply (f_equal (fun l => nth i l 0)) in E. rewrite Nh, Nv, nth_vscale, !nth_lc in E. rewrite E. ring.
  - intros E. apply list_ext; [congruence|]. intros i. rewrite Nh, Nv, nth_vscale, !nth_lc. specialize (E i). fold s in E. rewrite E. ring.
Qed.
Lemma is_sat_relaxed_panics (U : rinst C) (V : rwit S) : length (ri_x U) = sh_l sh -> length (rw_w V) = sh_w sh -> length (rw_e V) <> sh_m sh -> is_sat_relaxed sh U V = None.
Proof.
  intros L1 L2 L3. pose proof W as (LA & LB & LC & _). unfold is_sat_relaxed. rewrite (prods_ok S sh W) by assumption.
  destruct (hadamard S _ _); [|reflexivity]. unfold vadd. rewrite length_vscale, map_length, LC.
  destruct (Nat.eqb_spec (sh_m sh) (length (rw_e V))); [congruence|reflexivity].
Qed.
Lemma is_sat_single_ok (EQ : forall P Q, d_eqb C P Q = true <-> P = Q) (g : list pt) (i : inst C) (w : list S) : length (i_x i) = sh_l sh -> length w = sh_w sh ->
  exists b, is_sat_single sh g i w = Some b /\ (b = true <-> strict_pair sh g i w).
Proof.
  intros L1 L2. pose proof W as (LA & LB & LC & _). unfold is_sat_single. rewrite (prods_ok S sh W) by assumption.
  set (s := asg_of 1 (i_x i) w).
  destruct (had_ok S (map (lc s) (sh_a sh)) (map (lc s) (sh_b sh))) as (h & -> & Lh & Nh); [rewrite !map_length; congruence|].
  rewrite map_length in Lh. eexists. split; [reflexivity|]. rewrite andb_true_iff, EQ, all_eq_iff by (rewrite map_length; congruence).
  unfold strict_pair. rewrite (strict_all S sh W). fold s. split.
  - intros [E O]. split; [exact L1|]. split; [exact L2|]. split; [|exact O]. intros k. apply (f_equal (fun l => nth k l 0)) in E. rewrite Nh, !nth_lc in E. exact E.
  - intros (_ & _ & E & O). split; [|exact O]. apply list_ext; [rewrite map_length; congruence|]. intros k. rewrite Nh, !nth_lc. apply E.
Qed.
End Nova.

(** ** Challenges *)
Section Challenge.
Variables (B S : pfield) (C : driver B S) (p q : Z).
Hypothesis OB : field_ok B q.
Hypothesis OS : field_ok S p.
Lemma val_fits (F : pfield) (m : Z) (x : F) : field_ok F m -> (0 <= pf_val F x < 2 ^ (Z.of_nat 4 * Z.of_nat 64))%Z.
Proof.
  intros OF. pose proof (cf_range _ _ _ _ _ _ _ (fo_cf _ _ OF) x). pose proof (cf_p _ _ _ _ _ _ _ (fo_cf _ _ OF)).
  change (Z.of_nat 4 * Z.of_nat 64)%Z with 256%Z. pose proof (Z.pow_lt_mono_r 2 254 256). lia.
Qed.
(** What is absorbed for a public input: its four 64-bit digits. *)
Lemma absorb_limbs_ok xs : absorb_limbs B S xs = Some (flat_map (fun x => map (fun d => transfer S B (pf_of S d)) (digits 64 (pf_val S x) 4)) xs).
Proof.
  induction xs as [|x xs IH]; [reflexivity|]. cbn [absorb_limbs fold_right flat_map]. unfold absorb_limbs in IH. rewrite IH.
  rewrite nat_to_limbs_ok; [rewrite map_map; reflexivity|unfold BN_LIMB_WIDTH; lia|apply (val_fits S p), OS].
Qed.
Lemma absorb_total (U : rinst C) : exists st, absorb U = Some st.
Proof. unfold absorb. rewrite absorb_limbs_ok. eexists. reflexivity. Qed.
Lemma challenge_total T (U : rinst C) : exists r, challenge T U = Some r /\ (0 <= pf_val S r < 2 ^ 128)%Z.
Proof.
  unfold challenge. destruct (absorb_total U) as [st ->]. eexists. split; [reflexivity|]. rewrite (squeeze_val B S q p OB OS). unfold CHALLENGE_BITS. change (Z.of_nat 128) with 128%Z.
  pose proof (Z.mod_pos_bound (pf_val B (mimc_absorb (pf_consts B) (point_elems C T ++ st))) (2 ^ 128) ltac:(apply Z.pow_pos_nonneg; lia)) as R.
  pose proof (cf_p _ _ _ _ _ _ _ (fo_cf _ _ OS)). pose proof (Z.pow_lt_mono_r 2 128 253). rewrite Z.mod_small; lia.
Qed.
Lemma hash_total (U : rinst C) i z0 zi : exists h, rinst_hash U i z0 zi = Some h.
Proof. unfold rinst_hash. destruct (absorb_total U) as [st ->]. eexists. reflexivity. Qed.
End Challenge.
