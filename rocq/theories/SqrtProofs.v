(** The square-root loop of Fr computes a square root, when its squarings are exact. *)
From Coq Require Import ZArith List Bool Lia Znumtheory Zpow_facts Field.
From Verif Require Import LimbModel LimbProofs MontProofs FieldModel FieldSpec FieldProofs PowProofs FieldMore Primes Algebra SqrtSpec.
Import ListNotations.

(** ** In a field *)
Section Tonelli.
Variable K : Fld.
Add Field tsfield : (kth K).
Local Open Scope fld_scope.

Fixpoint sqi (n : nat) (x : K) : K := match n with O => x | S n => sqi n (x * x) end.
Lemma sqi_S n x : sqi (S n) x = sqi n x * sqi n x.
Proof. revert x. induction n as [|n IH]; intros x; [reflexivity|]. cbn [sqi] in *. rewrite IH. reflexivity. Qed.
Lemma sqi_add n k x : sqi (n + k) x = sqi k (sqi n x).
Proof. revert x. induction n as [|n IH]; intros x; [reflexivity|]. cbn [Nat.add sqi]. apply IH. Qed.
Lemma sqi_mul n x y : sqi n (x * y) = sqi n x * sqi n y.
Proof. induction n as [|n IH]; [reflexivity|]. rewrite !sqi_S, IH. ring. Qed.
Lemma sqi_1 n : sqi n 1 = (1 : K).
Proof. induction n as [|n IH]; [reflexivity|]. rewrite sqi_S, IH. ring. Qed.
Lemma sqrt_1 (y : K) : y * y = 1 -> y = 1 \/ y = - (1).
Proof.
  intros H. assert (E : (y - 1) * (y + 1) = 0) by (transitivity (y * y - 1); [ring|rewrite H; ring]).
  apply kmul_eq0 in E as [E|E]; [left; transitivity ((y - 1) + 1); [ring|rewrite E; ring]|right; transitivity ((y + 1) - 1); [ring|rewrite E; ring]].
Qed.
Lemma zero_r (w : K) : w * 0 = 0. Proof. ring. Qed.
Lemma one_l (w : K) : 1 * w = w. Proof. ring. Qed.
Lemma minus_one_start : (- (1) * - (1) = 1 :> K) /\ (1 * - (1) = - (1) :> K). Proof. split; ring. Qed.
Lemma start_eq (w a : K) : (w * a) * (w * a) = a * (w * a * w). Proof. ring. Qed.

Notation inner := (ts_inner (A := K) ksq 1 keqb).
Notation outer := (ts_outer (A := K) kmul ksq 1 keqb).
Notation zs j len := (map Z.of_nat (seq j len)).
Lemma one_eqb : keqb (1 : K) 1 = true. Proof. apply keqb_refl. Qed.
Lemma inner_idle js v k (z : K) : exists b, inner js v (k, 1, false, z) = (k, 1, b, z).
Proof.
  induction js as [|j js IH]; [eexists; reflexivity|]. cbn [ts_inner]. rewrite one_eqb. cbn [andb]. exact IH.
Qed.
Lemma inner_z v k len : forall j (z : K), (j <= v <= j + len)%nat ->
  exists b, inner (zs j len) (Z.of_nat v) (k, 1, true, z) = (k, 1, b, sqi (v - j) z).
Proof.
  induction len as [|len IH]; intros j z H.
  - replace (v - j)%nat with O by lia. eexists. reflexivity.
  - cbn [seq map ts_inner]. rewrite one_eqb. cbn [andb]. destruct (Z.eqb_spec (Z.of_nat j) (Z.of_nat v)) as [E|N].
    + replace (v - j)%nat with O by lia. cbn [negb]. apply inner_idle.
    + cbn [negb]. destruct (IH (S j) (ksq z) ltac:(lia)) as [b E]. exists b. rewrite E.
      replace (v - j)%nat with (S (v - S j)) by lia. reflexivity.
Qed.
Lemma inner_late v k len : forall j (z : K), (v < j)%nat ->
  exists b, inner (zs j len) (Z.of_nat v) (k, 1, true, z) = (k, 1, b, sqi len z).
Proof.
  induction len as [|len IH]; intros j z H; [eexists; reflexivity|].
  cbn [seq map ts_inner]. rewrite one_eqb. cbn [andb]. destruct (Z.eqb_spec (Z.of_nat j) (Z.of_nat v)) as [E|N]; [lia|].
  cbn [negb]. apply (IH (S j) (ksq z)). lia.
Qed.
Lemma inner_b (b : K) k v : sqi k b = 1 -> (forall i, (1 <= i < k)%nat -> sqi i b <> 1) -> forall len i (z : K),
  (1 <= i <= k)%nat -> (k < v <= S i + len)%nat ->
  exists c, inner (zs (S i) len) (Z.of_nat v) (Z.of_nat i, sqi i b, true, z) = (Z.of_nat k, 1, c, sqi (v - 1 - k) z).
Proof.
  intros E1 MIN. induction len as [|len IH]; intros i z Hi Hv.
  - assert (i = k) as -> by lia. rewrite E1. replace (v - 1 - k)%nat with O by lia. eexists. reflexivity.
  - destruct (Nat.eq_dec i k) as [->|N].
    + rewrite E1. replace (v - 1 - k)%nat with (v - S k)%nat by lia. apply inner_z. lia.
    + cbn [seq map ts_inner]. destruct (keqb_spec K (sqi i b) 1) as [E|_]; [destruct (MIN i ltac:(lia) E)|].
      destruct (Z.eqb_spec (Z.of_nat (S i)) (Z.of_nat v)) as [E|_]; [lia|]. cbn [andb negb].
      unfold ksq. rewrite <- sqi_S. apply IH; lia.
Qed.
Lemma first_one (b : K) n : sqi n b = 1 -> b <> 1 -> exists k, (1 <= k <= n)%nat /\ sqi k b = 1 /\ (forall i, (i < k)%nat -> sqi i b <> 1).
Proof.
  revert b. induction n as [|n IH]; intros b E N; [contradiction|]. cbn [sqi] in E.
  destruct (kdec K (b * b) 1) as [E1|N1].
  - exists 1%nat. split; [lia|]. split; [exact E1|]. intros i Hi. replace i with O by lia. exact N.
  - destruct (IH _ E N1) as (k & Hk & E2 & MIN). exists (S k). split; [lia|]. split; [exact E2|].
    intros [|i] Hi; [exact N|]. apply MIN. lia.
Qed.

(** The invariant: the loop is at work, or has arrived. *)
Definition at_work (a : K) (n v : nat) (x b z : K) : Prop :=
  (2 <= v <= n)%nat /\ x * x = a * b /\ sqi (v - 1) z = - (1) /\ sqi (v - 1) b = 1.
Definition arrived (a : K) (v : nat) (x b z : K) : Prop := v = 1%nat /\ x * x = a /\ z * z = 1 /\ b * b = 1.

Lemma outer_spec (a : K) n : forall v x b z, at_work a n v x b z \/ arrived a v x b z ->
  exists k x' b' z', outer n (Z.of_nat v, x, b, z) = (k, x', b', z') /\ x' * x' = a.
Proof.
  induction n as [|n IH]; intros v x b z H.
  - destruct H as [[H _]|(_ & E & _)]; [lia|]. exists (Z.of_nat v), x, b, z. split; [reflexivity|exact E].
  - cbn [ts_outer]. unfold range2.
    assert (STEP : exists k c z', (inner (zs 2 (S n - 2)) (Z.of_nat v) (1%Z, ksq b, true, z) = (Z.of_nat k, 1, c, z')) /\
      let x' := if negb (keqb b 1) then x * z' else x in
      (at_work a n k x' (b * (z' * z')) (z' * z') \/ arrived a k x' (b * (z' * z')) (z' * z'))).
    { destruct H as [(HV & EX & EZ & EB)|(-> & EX & EZ & EB)].
      - destruct (keqb_spec K b 1) as [E1|N1].
        + subst b. destruct (inner_z v 1%Z (S n - 2) 2 z ltac:(lia)) as [c E].
          exists 1%nat, c, (sqi (v - 2) z). split.
          * unfold ksq. replace (1 * 1 : K) with (1 : K) by ring. exact E.
          * cbv zeta. cbn [negb]. right. assert (Q : sqi (v - 2) z * sqi (v - 2) z = - (1)).
            { rewrite <- sqi_S. replace (S (v - 2)) with (v - 1)%nat by lia. exact EZ. }
            rewrite Q. split; [reflexivity|]. split; [transitivity (a * 1); [exact EX|ring]|]. split; ring.
        + destruct (first_one b (v - 1) EB N1) as (k & Hk & E2 & MIN).
          destruct (inner_b b k v E2 (fun i Hi => MIN i (proj2 Hi)) (S n - 2) 1 z ltac:(lia) ltac:(lia)) as [c E].
          exists k, c, (sqi (v - 1 - k) z). split; [exact E|]. cbv zeta. cbn [negb].
          set (z' := sqi (v - 1 - k) z) in *.
          assert (Z1 : sqi k z' = - (1)) by (unfold z'; rewrite <- sqi_add; replace (v - 1 - k + k)%nat with (v - 1)%nat by lia; exact EZ).
          assert (B1 : sqi (k - 1) b = - (1)).
          { destruct (sqrt_1 (sqi (k - 1) b)) as [Q|Q]; [|destruct (MIN (k - 1)%nat ltac:(lia) Q)|exact Q].
            rewrite <- sqi_S. replace (S (k - 1)) with k by lia. exact E2. }
          assert (Z2 : sqi (k - 1) (z' * z') = - (1)).
          { transitivity (sqi k z'); [|exact Z1]. replace k with (S (k - 1)) at 2 by lia. reflexivity. }
          assert (B2 : sqi (k - 1) (b * (z' * z')) = 1) by (rewrite sqi_mul, B1, Z2; ring).
          assert (X2 : (x * z') * (x * z') = a * (b * (z' * z'))) by (transitivity ((x * x) * (z' * z')); [ring|rewrite EX; ring]).
          destruct (Nat.eq_dec k 1) as [->|NK].
          * right. cbn [Nat.sub sqi] in B2, Z2. split; [reflexivity|]. split; [rewrite X2, B2; ring|].
            rewrite B2, Z2. split; ring.
          * left. split; [lia|]. split; [exact X2|]. split; [exact Z2|exact B2].
      - destruct (inner_late 1 1%Z (S n - 2) 2 z ltac:(lia)) as [c E].
        exists 1%nat, c, (sqi (S n - 2) z). split.
        + unfold ksq. rewrite EB. exact E.
        + cbv zeta. right. assert (Q : sqi (S n - 2) z * sqi (S n - 2) z = 1).
          { rewrite <- sqi_S. cbn [sqi]. rewrite EZ. apply sqi_1. }
          rewrite Q. split; [reflexivity|]. split; [|split; [ring|transitivity (b * b); [ring|exact EB]]].
          destruct (keqb b 1); cbn [negb]; [exact EX|]. transitivity ((x * x) * (sqi (S n - 2) z * sqi (S n - 2) z)); [ring|rewrite EX, Q; ring]. }
    destruct STEP as (k & c & z' & E & INV). cbv zeta in INV. rewrite E. apply IH. exact INV.
Qed.
(** From [x = 0] the loop returns [0]. *)
Lemma outer_zero n : forall v (b z : K), exists k b' z', outer n (v, 0, b, z) = (k, 0, b', z').
Proof.
  induction n as [|n IH]; intros v b z; [do 3 eexists; reflexivity|]. cbn [ts_outer].
  destruct (inner _ _ _) as [[[k ?] ?] z']. replace (if negb (keqb b 1) then 0 * z' else 0) with (0 : K) by (destruct (keqb b 1); cbn [negb]; ring).
  apply IH.
Qed.
(** What the loop squares when it starts from [b = -1]: only the powers [z^(2^i)]. *)
Notation inner_sq := (ts_inner_squares (A := K) ksq 1 keqb).
Notation outer_sq := (ts_outer_squares (A := K) kmul ksq 1 keqb).
Definition tower (g c : K) : Prop := exists i, c = sqi i g.
Lemma tower_sq g c : tower g c -> tower g (ksq c).
Proof. intros [i ->]. exists (S i). symmetry. apply sqi_S. Qed.
Lemma inner_tower g js v : forall k b j z, tower g b -> tower g z -> Forall (tower g) (inner_sq js v (k, b, j, z)).
Proof.
  induction js as [|j' js IH]; intros k b j z Hb Hz; [constructor|]. cbn [ts_inner_squares].
  destruct (keqb b 1).
  - destruct (j && negb (j' =? v)%Z); cbn [app]; [constructor; [exact Hz|]|]; apply IH; auto using tower_sq.
  - constructor; [exact Hb|]. apply IH; auto using tower_sq.
Qed.
Lemma sqi_tower g c n : tower g c -> tower g (sqi n c).
Proof. intros [i ->]. exists (i + n)%nat. symmetry. apply sqi_add. Qed.
Lemma arrived_tower g n : forall x b z, b * b = 1 -> z * z = 1 -> tower g b -> tower g z ->
  Forall (tower g) (outer_sq n (1%Z, x, b, z)).
Proof.
  induction n as [|n IH]; intros x b z EB EZ Hb Hz; [constructor|]. cbn [ts_outer_squares]. unfold range2.
  destruct (inner_late 1 1%Z (S n - 2) 2 z ltac:(lia)) as [c E].
  replace (ksq b) with (1 : K) by (symmetry; exact EB).
  change (Z.of_nat 1) with 1%Z in E. rewrite E. set (z' := sqi (S n - 2) z) in *. constructor; [exact Hb|]. apply Forall_app. split.
  - apply inner_tower; [|exact Hz]. rewrite <- EB. apply (tower_sq g b), Hb.
  - assert (Q : z' * z' = 1) by (unfold z'; rewrite <- sqi_S; cbn [sqi]; rewrite EZ; apply sqi_1).
    assert (Z' : tower g z') by (apply sqi_tower, Hz).
    constructor; [exact Z'|]. apply IH.
    + unfold ksq. rewrite Q. transitivity (b * b); [ring|exact EB].
    + unfold ksq. rewrite Q. ring.
    + unfold ksq. rewrite Q. replace (b * 1) with b by ring. exact Hb.
    + apply tower_sq, Z'.
Qed.
Lemma minus_one_tower n (x z : K) : (2 <= n)%nat -> sqi (n - 1) z = - (1) -> - (1) <> (1 : K) ->
  Forall (tower z) (outer_sq n (Z.of_nat n, x, - (1), z)).
Proof.
  intros Hn EZ NE. destruct n as [|n]; [lia|]. cbn [ts_outer_squares]. unfold range2.
  assert (M : tower z (- (1))) by (eexists; symmetry; exact EZ).
  assert (O : tower z 1) by (replace (1 : K) with (ksq (- (1)) : K) by (unfold ksq; ring); apply tower_sq, M).
  destruct (inner_b (- (1)) 1 (S n)) with (len := (S n - 2)%nat) (i := 1%nat) (z := z) as [c E];
    [cbn [sqi]; ring|intros i Hi; lia|lia|lia|].
  replace (ksq (- (1))) with (1 : K) by (unfold ksq; ring).
  replace (sqi 1 (- (1))) with (1 : K) in E by (cbn [sqi]; ring).
  change (Z.of_nat 1) with 1%Z in E. rewrite E. cbn [fst snd]. set (z' := sqi (S n - 1 - 1) z) in *.
  assert (Q : z' * z' = - (1)) by (unfold z'; rewrite <- sqi_S; replace (S (S n - 1 - 1)) with (S n - 1)%nat by lia; exact EZ).
  assert (Z' : tower z z') by (eexists; reflexivity).
  constructor; [exact M|]. apply Forall_app. split; [apply inner_tower; [exact O|exists 0%nat; reflexivity]|].
  constructor; [exact Z'|]. unfold ksq. rewrite Q. apply arrived_tower.
  - ring.
  - ring.
  - replace (- (1) * - (1) : K) with (1 : K) by ring. exact O.
  - exact M.
Qed.
Lemma arrived_stays n : forall (x z : K), z * z = 1 -> exists k b' z', outer n (1%Z, x, 1, z) = (k, x, b', z').
Proof.
  induction n as [|n IH]; intros x z EZ; [do 3 eexists; reflexivity|]. cbn [ts_outer]. unfold range2.
  destruct (inner_late 1 1%Z (S n - 2) 2 z ltac:(lia)) as [c E].
  replace (ksq 1) with (1 : K) by (unfold ksq; ring). change (Z.of_nat 1) with 1%Z in E. rewrite E, one_eqb. cbn [negb].
  set (z' := sqi (S n - 2) z) in *.
  assert (Q : ksq z' = 1) by (unfold z', ksq; rewrite <- sqi_S; cbn [sqi]; rewrite EZ; apply sqi_1).
  rewrite Q. replace (1 * 1 : K) with (1 : K) by ring. apply IH. ring.
Qed.
Lemma minus_one_root n (x z : K) : (2 <= n)%nat -> sqi (n - 1) z = - (1) -> - (1) <> (1 : K) ->
  exists k b' z', outer n (Z.of_nat n, x, - (1), z) = (k, x * sqi (n - 2) z, b', z').
Proof.
  intros Hn EZ NE. destruct n as [|n]; [lia|]. cbn [ts_outer]. unfold range2.
  destruct (inner_b (- (1)) 1 (S n)) with (len := (S n - 2)%nat) (i := 1%nat) (z := z) as [c E];
    [cbn [sqi]; ring|intros i Hi; lia|lia|lia|].
  replace (ksq (- (1))) with (1 : K) by (unfold ksq; ring).
  replace (sqi 1 (- (1))) with (1 : K) in E by (cbn [sqi]; ring).
  change (Z.of_nat 1) with 1%Z in E. rewrite E. destruct (keqb_spec K (- (1)) 1) as [N|_]; [contradiction|]. cbn [negb].
  replace (S n - 1 - 1)%nat with (S n - 2)%nat by lia. set (z' := sqi (S n - 2) z) in *.
  assert (Q : ksq z' = - (1)) by (unfold z', ksq; rewrite <- sqi_S; replace (S (S n - 2)) with (S n - 1)%nat by lia; exact EZ).
  rewrite Q. replace (- (1) * - (1) : K) with (1 : K) by ring. apply arrived_stays. ring.
Qed.
End Tonelli.

(** ** The run on limbs is the run in the field while the squarings are exact *)
Section Sim.
Context {A K : Type} (raw : K -> A) (amul : A -> A -> A) (asq : A -> A) (aone : A) (aeqb : A -> A -> bool)
  (mul : K -> K -> K) (sq : K -> K) (one : K) (eqb : K -> K -> bool) (ok : A -> Prop).
Hypothesis Hmul : forall a b, amul (raw a) (raw b) = raw (mul a b).
Hypothesis Hone : aone = raw one.
Hypothesis Heqb : forall a b, aeqb (raw a) (raw b) = eqb a b.
Hypothesis Hsq : forall a, ok (raw a) -> asq (raw a) = raw (sq a).
Definition rawi (st : Z * K * bool * K) : Z * A * bool * A := let '(k, b, j, z) := st in (k, raw b, j, raw z).
Definition rawo (st : Z * K * K * K) : Z * A * A * A := let '(v, x, b, z) := st in (v, raw x, raw b, raw z).
Lemma sim_inner js v : forall st, Forall ok (ts_inner_squares asq aone aeqb js v (rawi st)) ->
  ts_inner asq aone aeqb js v (rawi st) = rawi (ts_inner sq one eqb js v st).
Proof.
  induction js as [|j js IH]; intros [[[k b] jl] z] H; [reflexivity|]. cbn [rawi ts_inner ts_inner_squares] in *.
  rewrite Hone, Heqb in *. destruct (eqb b one).
  - destruct (jl && negb (j =? v)%Z).
    + cbn [app] in H. apply Forall_cons_iff in H as [H1 H2]. rewrite (Hsq z H1) in *. exact (IH (k, b, true, sq z) H2).
    + exact (IH (k, b, false, z) H).
  - apply Forall_cons_iff in H as [H1 H2]. rewrite (Hsq b H1) in *. exact (IH (j, sq b, jl && negb (j =? v)%Z, z) H2).
Qed.
Lemma sim_outer n : forall st, Forall ok (ts_outer_squares amul asq aone aeqb n (rawo st)) ->
  ts_outer amul asq aone aeqb n (rawo st) = rawo (ts_outer mul sq one eqb n st).
Proof.
  induction n as [|n IH]; intros [[[v x] b] z] H; [reflexivity|]. cbn [rawo ts_outer ts_outer_squares] in *.
  destruct (ts_inner asq aone aeqb (range2 (S n)) v (1%Z, asq (raw b), true, raw z)) as [[[k u] j] z'] eqn:E.
  apply Forall_cons_iff in H as [H1 H2]. apply Forall_app in H2 as [H2 H3]. apply Forall_cons_iff in H3 as [H4 H5].
  rewrite (Hsq b H1) in *. pose proof (sim_inner (range2 (S n)) v (1%Z, sq b, true, z) H2) as S1. cbn [rawi] in S1. rewrite E in S1.
  destruct (ts_inner sq one eqb (range2 (S n)) v (1%Z, sq b, true, z)) as [[[k' u'] j'] z''] eqn:E'. cbn [rawi] in S1.
  injection S1 as -> -> -> ->. rewrite (Hsq z'' H4) in *. rewrite Hone, Heqb in *. rewrite !Hmul in *.
  replace (if negb (eqb b one) then raw (mul x z'') else raw x) with (raw (if negb (eqb b one) then mul x z'' else x)) in *
    by (destruct (eqb b one); reflexivity).
  exact (IH (k', if negb (eqb b one) then mul x z'' else x, mul b (sq z''), sq z'') H5).
Qed.
(** The other direction: if the field run squares only exact values, so does the run on limbs. *)
Lemma list_inner js v : forall st, Forall (fun e => ok (raw e)) (ts_inner_squares sq one eqb js v st) ->
  Forall ok (ts_inner_squares asq aone aeqb js v (rawi st)).
Proof.
  induction js as [|j js IH]; intros [[[k b] jl] z] H; [constructor|]. cbn [rawi ts_inner_squares] in *.
  rewrite Hone, Heqb in *. destruct (eqb b one).
  - destruct (jl && negb (j =? v)%Z).
    + cbn [app] in *. apply Forall_cons_iff in H as [H1 H2]. constructor; [exact H1|]. rewrite (Hsq z H1).
      exact (IH (k, b, true, sq z) H2).
    + exact (IH (k, b, false, z) H).
  - apply Forall_cons_iff in H as [H1 H2]. constructor; [exact H1|]. rewrite (Hsq b H1).
    exact (IH (j, sq b, jl && negb (j =? v)%Z, z) H2).
Qed.
Lemma list_outer n : forall st, Forall (fun e => ok (raw e)) (ts_outer_squares mul sq one eqb n st) ->
  Forall ok (ts_outer_squares amul asq aone aeqb n (rawo st)).
Proof.
  induction n as [|n IH]; intros [[[v x] b] z] H; [constructor|]. cbn [rawo ts_outer_squares] in *.
  destruct (ts_inner sq one eqb (range2 (S n)) v (1%Z, sq b, true, z)) as [[[k u] j] z'] eqn:E.
  apply Forall_cons_iff in H as [H1 H2]. apply Forall_app in H2 as [H2 H3]. apply Forall_cons_iff in H3 as [H4 H5].
  rewrite (Hsq b H1) in *. pose proof (list_inner (range2 (S n)) v (1%Z, sq b, true, z) H2) as L.
  pose proof (sim_inner (range2 (S n)) v (1%Z, sq b, true, z) L) as S1. cbn [rawi] in S1, L. rewrite E in S1. cbn [rawi] in S1. rewrite S1.
  constructor; [exact H1|]. apply Forall_app. split; [exact L|]. constructor; [exact H4|].
  rewrite (Hsq z' H4) in *. rewrite Hone, Heqb in *. rewrite !Hmul in *.
  replace (if negb (eqb b one) then raw (mul x z') else raw x) with (raw (if negb (eqb b one) then mul x z' else x)) in *
    by (destruct (eqb b one); reflexivity).
  exact (IH (k, if negb (eqb b one) then mul x z' else x, mul b (sq z'), sq z') H5).
Qed.
End Sim.

(** ** On limbs *)
Section Limb.
Local Open Scope Z_scope.
Variables (P : fparams) (m : Z).
Hypothesis OK : params_ok P m.
Hypothesis PR : prime m.
Hypothesis BIG : 2 < m.
Let K : Fld := LimbFld P m OK PR.
Notation V := (lf_val P m).
Notation raw := (lf_limbs m).

Lemma lf_of (a : l4) x : rep m a x -> exists A : K, raw A = a /\ V A = x.
Proof.
  intros R. exists (exist _ a (rep_redb P m OK a x R)). split; [reflexivity|]. apply (lf_val_rep P m OK). exact R.
Qed.
Lemma mone : 1 mod m = 1. Proof. apply Z.mod_small. lia. Qed.
Lemma V_sqi n : forall c : K, V (sqi K n c) = V c ^ (2 ^ Z.of_nat n) mod m.
Proof.
  induction n as [|n IH]; intros c.
  - cbn [sqi]. change (2 ^ Z.of_nat 0) with 1. rewrite Z.pow_1_r, Z.mod_small; [reflexivity|]. apply (lf_val_range P m OK).
  - cbn [sqi]. rewrite IH. change (V (c * c)%fld) with (V (lf_mul P m OK c c)). rewrite (lf_val_mul P m OK). rewrite pow_mod_idem by lia.
    rewrite Nat2Z.inj_succ, Z.pow_succ_r by lia. rewrite Z.pow_mul_r by lia. rewrite Z.pow_2_r. reflexivity.
Qed.

Definition ts_loop (n : nat) (a w root : l4) : Z * l4 * l4 * l4 :=
  ts_outer (fmul P) (fsquare P) (fone P) feqb n (Z.of_nat n, fmul P w a, fmul P (fmul P w a) w, root).
Definition ts_list (n : nat) (a w root : l4) : list l4 :=
  ts_outer_squares (fmul P) (fsquare P) (fone P) feqb n (Z.of_nat n, fmul P w a, fmul P (fmul P w a) w, root).
Theorem ts_limb n h a w root x rt : (2 <= n)%nat -> 0 <= h -> m - 1 = 2 ^ Z.of_nat n * (2 * h + 1) ->
  rep m a x -> rep m w (x ^ h mod m) -> rep m root rt -> rt ^ (2 ^ Z.of_nat (n - 1)) mod m = m - 1 ->
  Forall (fun s => drops_carry s = false) (ts_list n a w root) ->
  exists k x' b' z', ts_loop n a w root = (k, x', b', z') /\ (drops_carry x' = false ->
    sqrt_answer m x (if eqb4 (fsquare P x') a then Some x' else None)).
Proof.
  intros Hn Hh Hm Ra Rw Rr ER FA. unfold ts_loop, ts_list in *.
  destruct (lf_of a x Ra) as (A & <- & VA). destruct (lf_of w _ Rw) as (W & <- & VW). destruct (lf_of root rt Rr) as (G & <- & VG).
  assert (SQ : forall c : K, drops_carry (raw c) = false -> fsquare P (raw c) = raw (c * c)%fld).
  { intros c D. rewrite (square_is_mul P m OK _ _ (lf_rep P m OK c) D). reflexivity. }
  assert (SIM := sim_outer (K := K) raw (fmul P) (fsquare P) (fone P) feqb kmul ksq (k1 : K) keqb (fun s => drops_carry s = false)
    (fun a b => eq_refl) eq_refl (fun a b => eq_refl) SQ n (Z.of_nat n, (W * A)%fld, (W * A * W)%fld, G) FA).
  cbn [rawo] in SIM.
  change (fmul P (raw W) (raw A)) with (raw (W * A : K)%fld). change (fmul P (raw (W * A : K)%fld) (raw W)) with (raw (W * A * W : K)%fld).
  rewrite SIM. clear SIM FA.
  destruct (ts_outer (kmul (f := K)) ksq k1 keqb n (Z.of_nat n, (W * A)%fld, (W * A * W)%fld, G)) as [[[k X] b'] z'] eqn:E.
  exists k, (raw X), (raw b'), (raw z'). split; [reflexivity|]. intros D. rewrite (SQ X D).
  destruct (eqb4 (raw (X * X)%fld) (raw A)) eqn:Q.
  - apply eqb4_eq in Q. apply lf_eq in Q. exists (V X). split; [apply represents_rep; apply (lf_rep P m OK)|].
    rewrite <- VA, <- Q. symmetry. apply (lf_val_mul P m OK).
  - intros [y Hy]. assert (N : eqb4 (raw (X * X)%fld) (raw A) <> true) by (rewrite Q; discriminate). apply N. clear N Q.
    apply eqb4_eq. apply (f_equal raw).
    destruct (Z.eq_dec x 0) as [X0|NX].
    + assert (A0 : A = k0) by (apply (lf_val_inj P m OK); rewrite VA, X0; symmetry; apply (lf_val_0 P m OK)).
      replace (W * A)%fld with (k0 : K) in E by (rewrite A0; symmetry; exact (zero_r K W)).
      destruct (outer_zero K n (Z.of_nat n) (k0 * W)%fld G) as (k2 & b2 & z2 & E2). rewrite E2 in E. injection E as _ <- _ _.
      rewrite A0. exact (zero_r K k0).
    + assert (ND : ~ (m | y)).
      { intros DV. apply NX. rewrite <- Hy. apply Z.mod_divide; [lia|]. apply Z.divide_mul_l, DV. }
      destruct (outer_spec K) with (a := A) (n := n) (v := n) (x := (W * A)%fld) (b := (W * A * W)%fld) (z := G)
        as (k2 & x2 & b2 & z2 & E2 & R2); [|rewrite E2 in E; injection E as _ <- _ _; exact R2]. 
      left. split; [lia|]. split; [|split].
      * apply (start_eq K).
      * apply (lf_val_inj P m OK). rewrite V_sqi, VG, ER. change (- (1))%fld with (lf_opp P m OK (lf_1 P m OK)).
        rewrite (lf_val_opp P m OK), (lf_val_1 P m OK). apply (Z.mod_unique_pos _ _ (-1)); lia.
      * apply (lf_val_inj P m OK). rewrite V_sqi. change (V (k1 : K)) with (V (lf_1 P m OK)). rewrite (lf_val_1 P m OK).
        change (V (W * A * W)%fld) with (V (lf_mul P m OK (lf_mul P m OK W A) W)). rewrite !(lf_val_mul P m OK), VA, VW.
        rewrite pow_mod_idem by (try lia; apply Z.pow_nonneg; lia).
        replace (x ^ h mod m * x mod m * (x ^ h mod m)) with ((x ^ h mod m * x mod m) * (x ^ h mod m)) by reflexivity.
        rewrite <- pow_mod_idem by (try lia; apply Z.pow_nonneg; lia).
        replace (x ^ h mod m * x mod m * (x ^ h mod m) mod m) with (x ^ (2 * h + 1) mod m).
        2: { rewrite Z.mul_mod_idemp_l, Z.mul_mod_idemp_r by lia. rewrite <- Z.mul_assoc, Z.mul_mod_idemp_l by lia.
             f_equal. replace (2 * h + 1) with (h + (1 + h)) by lia. rewrite !Z.pow_add_r, Z.pow_1_r by lia. ring. }
        rewrite pow_mod_idem by (try lia; apply Z.pow_nonneg; lia). rewrite <- Hy.
        rewrite <- Z.pow_mul_r by (try lia; apply Z.pow_nonneg; lia).
        assert (P0 : 0 <= (2 * h + 1) * 2 ^ Z.of_nat (n - 1)) by (apply Z.mul_nonneg_nonneg; [lia|apply Z.pow_nonneg; lia]).
        rewrite pow_mod_idem by (try lia; exact P0). replace (y * y) with (y ^ 2) by ring. rewrite <- Z.pow_mul_r by (try lia; exact P0).
        replace (2 * ((2 * h + 1) * 2 ^ Z.of_nat (n - 1))) with (m - 1).
        2: { rewrite Hm. replace (Z.of_nat n) with (Z.succ (Z.of_nat (n - 1))) by lia. rewrite Z.pow_succ_r by lia. ring. }
        rewrite (fermat m y PR ND). apply mone.
Qed.

(** The run on [-1]: the loop squares only the powers [root^(2^i)]. *)
Lemma minus_one_run n root rt : (2 <= n)%nat -> rep m root rt -> rt ^ (2 ^ Z.of_nat (n - 1)) mod m = m - 1 ->
  (forall (c : K) i, raw c = root -> drops_carry (raw (sqi K i c)) = false) ->
  let a := fneg P (fone P) in
  Forall (fun s => drops_carry s = false) (ts_list n a a root) /\
  exists k x' b' z', ts_loop n a a root = (k, x', b', z') /\ drops_carry x' = false.
Proof.
  intros Hn Rr ER EX a. destruct (lf_of root rt Rr) as (G & EG & VG). subst root.
  assert (GG : forall i, drops_carry (raw (sqi K i G)) = false) by (intros i; apply EX; reflexivity). clear EX.
  assert (EZ : sqi K (n - 1) G = (- (1))%fld).
  { apply (lf_val_inj P m OK). rewrite V_sqi, VG, ER. change (- (1))%fld with (lf_opp P m OK (lf_1 P m OK)).
    rewrite (lf_val_opp P m OK), (lf_val_1 P m OK). apply (Z.mod_unique_pos _ _ (-1)); lia. }
  assert (NE : (- (1))%fld <> (k1 : K)).
  { intros E. change (lf_opp P m OK (lf_1 P m OK) = lf_1 P m OK) in E. apply (f_equal V) in E.
    rewrite (lf_val_opp P m OK), (lf_val_1 P m OK) in E.
    assert (Q : (- (1)) mod m = m - 1) by (symmetry; apply (Z.mod_unique_pos _ _ (-1)); lia). lia. }
  assert (SQ : forall c : K, drops_carry (raw c) = false -> fsquare P (raw c) = raw (c * c)%fld).
  { intros c D. rewrite (square_is_mul P m OK _ _ (lf_rep P m OK c) D). reflexivity. }
  pose proof (minus_one_start K) as [S1 S2].
  assert (TW : Forall (fun c : K => drops_carry (raw c) = false) (ts_outer_squares (A := K) kmul ksq k1 keqb n (Z.of_nat n, k1, (- (1))%fld, G))).
  { apply (Forall_impl _ (P := tower K G)); [intros c [i ->]; apply GG|]. apply minus_one_tower; assumption. }
  unfold ts_list, ts_loop. change a with (raw (- (1) : K)%fld).
  change (fmul P (raw (- (1) : K)%fld) (raw (- (1) : K)%fld)) with (raw (- (1) * - (1) : K)%fld). rewrite S1.
  change (fmul P (raw (k1 : K)) (raw (- (1) : K)%fld)) with (raw (k1 * - (1) : K)%fld). rewrite S2.
  assert (FA := list_outer (K := K) raw (fmul P) (fsquare P) (fone P) feqb kmul ksq (k1 : K) keqb (fun s => drops_carry s = false)
    (fun a b => eq_refl) eq_refl (fun a b => eq_refl) SQ n (Z.of_nat n, k1, (- (1))%fld, G) TW).
  split; [exact FA|].
  assert (SIM := sim_outer (K := K) raw (fmul P) (fsquare P) (fone P) feqb kmul ksq (k1 : K) keqb (fun s => drops_carry s = false)
    (fun a b => eq_refl) eq_refl (fun a b => eq_refl) SQ n (Z.of_nat n, k1, (- (1))%fld, G) FA).
  cbn [rawo] in SIM. rewrite SIM. destruct (minus_one_root K n k1 G Hn EZ NE) as (k & b' & z' & E). rewrite E.
  exists k, (raw (k1 * sqi K (n - 2) G)%fld), (raw b'), (raw z'). split; [reflexivity|]. rewrite one_l. apply GG.
Qed.
End Limb.
