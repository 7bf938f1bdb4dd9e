(** Property C70: the MiMC hash of the transcript computed with the limb-level [square], which loses a carry on some
    elements (property C02), against the hash the circuit enforces.
    Specification: [mimc_hash] on exact elements; FieldSpec.v ([drops_carry]); the elements a run squares are listed by
    the [.._squares] functions of HashSqModel.v. *)
From Coq Require Import ZArith List Bool Field Lia Znumtheory.
From Verif Require Import LimbModel LimbProofs FieldModel FieldSpec FieldProofs FieldMore Primes MacroSpec JubjubPrime ClaimsField SqrtSpec ClaimsSqrt Algebra ExtModel ExtParams ExtProofs ExtFrob
  GroupLib CurveSpec CurveParams CurveOrder G2Order WeierSqModel WeierSqProofs ClaimsWeierSq
  CircuitFields R1csModel R1csSpec R1csProofs GadgetProofs RangeProofs R1csShape ForgeProofs HonestRun NovaModel NovaSpec NovaProofs NovaFields
  BigNatModel LimbVec BigNatRun BigNatForge AugmentedModel IvcModel IvcSpec AugShape AugRun IvcProofs ClaimsIvc HashSqModel MimcData DigitProofs.
Import ListNotations.
Local Open Scope Z_scope.

(** A field whose [square] is wrong exactly on the elements [lost]. *)
Definition code_square (K : Fld) (sq : K -> K) (lost : K -> bool) : Prop := forall a, sq a = kmul a a <-> lost a = false.
Definition no_loss {K : Fld} (lost : K -> bool) (l : list K) : Prop := forall a, In a l -> lost a = false.

Theorem C70_fields : code_square FrFld fr_sq fr_lost /\ code_square FqFld fq_sq fq_lost.
Proof. destruct C65_curves as ((_ & A) & _ & (_ & B)). split; [exact B|exact A]. Qed.

Section Any.
Variables (K : Fld) (sq : K -> K) (lost : K -> bool).
Hypothesis OK : code_square K sq lost.
Local Open Scope fld_scope.
Add Field hashK : (kth K).
Lemma no_loss_app l1 l2 : no_loss lost (l1 ++ l2) -> no_loss lost l1 /\ no_loss lost l2.
Proof. intros H. split; intros a I; apply H, in_or_app; [left|right]; exact I. Qed.
Lemma round_exact st c : no_loss lost (round_squares K st c) -> sq_mimc_round K sq st c = mimc_round st c.
Proof.
  intros H. destruct st as [xl xr]. unfold sq_mimc_round, mimc_round, round_squares in *. cbn [fst] in H.
  rewrite (proj2 (OK (xl + c)) (H _ (or_introl eq_refl))), (proj2 (OK ((xl + c) * (xl + c))) (H _ (or_intror (or_introl eq_refl)))). reflexivity.
Qed.
Lemma rounds_exact cs : forall st, no_loss lost (rounds_squares K cs st) -> fold_left (sq_mimc_round K sq) cs st = fold_left mimc_round cs st.
Proof.
  induction cs as [|c cs IH]; intros st H; [reflexivity|]. cbn [rounds_squares fold_left] in *. apply no_loss_app in H as [H1 H2].
  rewrite (round_exact st c H1). apply IH, H2.
Qed.
(** Without a loss the native hash and the native transcript are the exact ones. *)
Theorem C70_hash_when_exact cs xl xr : no_loss lost (hash_squares K cs xl xr) -> sq_mimc_hash K sq cs xl xr = mimc_hash cs xl xr.
Proof. intros H. unfold sq_mimc_hash. rewrite (rounds_exact cs (xl, xr) H). reflexivity. Qed.
Theorem C70_absorb_when_exact cs st : no_loss lost (absorb_squares K cs st) -> sq_mimc_absorb K sq cs st = mimc_absorb cs st.
Proof.
  unfold sq_mimc_absorb, mimc_absorb, absorb_squares. generalize (0 : K). induction st as [|s st IH]; intros acc H; [reflexivity|].
  cbn [absorb_squares_from fold_left] in *. apply no_loss_app in H as [H1 H2]. rewrite (C70_hash_when_exact cs s acc H1). apply IH, H2.
Qed.
End Any.

(** ** The transcript: native side and circuit. *)
Section Transcript.
Variables (B S : pfield) (q p : Z) (sq : B -> B) (lost : B -> bool).
Hypothesis OB : field_ok B q.
Hypothesis OS : field_ok S p.
Hypothesis OK : code_square B sq lost.
(** If the native run loses no carry, the circuit's hash and challenge are those of the native run. *)
Theorem C70_circuit_agrees_when_exact cs st vs n : wf_cs cs -> Forall2 (stands_for cs) st vs -> (1 <= n <= 253)%nat ->
  no_loss lost (absorb_squares B (pf_consts B) vs) ->
  complete_at cs (mimc_absorb_g B st) (fun cs' h => stands_for cs' h (sq_mimc_absorb B sq (pf_consts B) vs)) /\
  complete_at cs (squeeze_g B st n) (fun cs' r => exists v, stands_for cs' r v /\ pf_val B v = pf_val S (sq_squeeze B S sq vs n)).
Proof.
  intros W H HN L. unfold sq_squeeze. rewrite (C70_absorb_when_exact B sq lost OK _ _ L). split.
  - exact (C44_absorb_agrees B cs st vs W H).
  - exact (C44_squeeze_agrees B S q p OB OS cs st vs n W H HN).
Qed.
End Transcript.

(** ** A round is right exactly when neither of its squares loses a carry. *)
(** [d] is what a loss adds; the two quadratics are the only ways a lost carry could cancel out. *)
Section Round.
Variables (K : Fld) (sq : K -> K) (lost : K -> bool) (d : K).
Local Open Scope fld_scope.
Add Field roundK : (kth K).
Notation n3 := (1 + 1 + 1 : K).
Hypothesis D : d <> 0.
Hypothesis L0 : lost 0 = false.
Hypothesis FORM : forall a, sq a = a * a + (if lost a then d else 0).
Hypothesis Q0 : forall y, lost y = true -> n3 * (y * y) * (y * y) + n3 * d * (y * y) + d * d <> 0.
Hypothesis Q1 : forall y, lost y = true -> n3 * (y * y) * (y * y) + (n3 * d + 1) * (y * y) + (d * d + d) <> 0.
Lemma lost_nz y : lost y = true -> y <> 0. Proof. intros H ->. congruence. Qed.
Lemma cancel_l (a b : K) : a <> 0 -> a * b = 0 -> b = 0.
Proof. intros A E. transitivity (a * b / a); [field; exact A|]. rewrite E. field. exact A. Qed.
Lemma round_iff st c : fst (sq_mimc_round K sq st c) = fst (mimc_round st c) <-> no_loss lost (round_squares K st c).
Proof.
  assert (CS : code_square K sq lost).
  { intros a. rewrite FORM. destruct (lost a); split; intros E; try reflexivity; try discriminate; [|ring].
    exfalso. apply D. transitivity (a * a + d - a * a); [ring|]. rewrite E. ring. }
  split; [|intros H; rewrite (round_exact K sq lost CS st c H); reflexivity].
  destruct st as [xl xr]. unfold sq_mimc_round, mimc_round, round_squares. cbn [fst]. set (y := xl + c). intros E.
  assert (E' : sq y * sq (sq y) * y = y * y * (y * y * (y * y)) * y).
  { transitivity (sq y * sq (sq y) * y + xr - xr); [ring|]. rewrite E. ring. }
  clear E. assert (LY : lost y = false).
  { destruct (lost y) eqn:LY; [exfalso|reflexivity]. pose proof (lost_nz y LY) as NY.
    rewrite (FORM (sq y)), (FORM y), LY in E'. revert E'. destruct (lost (y * y + d)); intros E'.
    - apply (Q1 y LY). apply (cancel_l (y * d)); [intros Z; apply D, (cancel_l y _ NY Z)|].
      transitivity ((y * y + d) * ((y * y + d) * (y * y + d) + d) * y - y * y * (y * y * (y * y)) * y); [ring|]. rewrite E'. ring.
    - apply (Q0 y LY). apply (cancel_l (y * d)); [intros Z; apply D, (cancel_l y _ NY Z)|].
      transitivity ((y * y + d) * ((y * y + d) * (y * y + d) + 0) * y - y * y * (y * y * (y * y)) * y); [ring|]. rewrite E'. ring. }
  intros a [<-|[<-|[]]]; [exact LY|]. destruct (lost (y * y)) eqn:LL; [exfalso|reflexivity].
  assert (NY : y <> 0) by (intros Z; rewrite Z in LL; replace (0 * 0) with (0 : K) in LL by ring; congruence).
  rewrite (FORM (sq y)), (FORM y), LY in E'. replace (y * y + 0) with (y * y) in E' by ring. rewrite LL in E'.
  apply D, (cancel_l (y * y * y)); [intros Z; apply NY, (cancel_l y _ NY); apply (cancel_l y _ NY); rewrite <- Z; ring|].
  transitivity (y * y * (y * y * (y * y) + d) * y - y * y * (y * y * (y * y)) * y); [ring|]. rewrite E'. ring.
Qed.
End Round.

(** *** Fr: the roots of the first quadratic and the discriminant of the second are not squares. *)
Section Fr.
Local Notation K := FrFld.
Add Field hashFr : (kth FrFld).
Definition fr_d0 : FrFld := fr_mk 4527192013836796226789672370696937914083323245019945624100414510305314096931.
Lemma root_not_square : forall s, (s * s) mod R_MOD <> fr_root_res mod R_MOD.
Proof.
  destruct fr_tower as (T & H0 & G). assert (O : R_MOD mod 2 = 1) by (rewrite R_MOD_val; reflexivity).
  apply (not_square R_MOD fr_root_res R_MOD_prime G O).
  - rewrite R_MOD_val. vm_compute. discriminate.
  - replace ((R_MOD - 1) / 2) with (2 ^ Z.of_nat (28 - 1) * (2 * fr_root_exponent + 1)).
    2:{ rewrite T. replace (2 ^ Z.of_nat 28) with (2 ^ Z.of_nat (28 - 1) * 2) by reflexivity. generalize (2 ^ Z.of_nat (28 - 1)) (2 * fr_root_exponent + 1). intros u v. replace (u * 2 * v) with (u * v * 2) by ring. rewrite Z.div_mul by lia. reflexivity. }
    assert (P27 : 0 <= 2 ^ Z.of_nat (28 - 1)) by (vm_compute; discriminate).
    rewrite Z.pow_mul_r by lia. rewrite <- pow_mod_idem, fr_root_top.
    replace (R_MOD - 1) with (-1 + 1 * R_MOD) by ring. rewrite <- pow_mod_idem, Z.mod_add, pow_mod_idem by lia.
    rewrite Z.pow_add_r, Z.pow_mul_r by lia. replace ((-1) ^ 2) with 1 by reflexivity. rewrite Z.pow_1_l by lia.
    1: rewrite R_MOD_val; vm_compute; discriminate. all: lia.
Qed.
Definition fr_root : FrFld := fr_mk fr_root_res.
Lemma fr_root_nonsquare (s : FrFld) : kmul s s <> fr_root.
Proof.
  intros E. apply (root_not_square (fr_val s)). apply (f_equal fr_val) in E. unfold fr_root in E. rewrite fr_mk_val in E. rewrite <- E.
  symmetry. exact (lf_val_mul fr R_MOD fr_ok s s).
Qed.
Lemma fr_nonsquare (c z y : FrFld) : c <> k0 -> z = kmul fr_root (kmul c c) -> kmul y y <> z.
Proof.
  intros N -> E. apply (fr_root_nonsquare (kdiv y c)). transitivity (kdiv (kmul y y) (kmul c c)); [field; exact N|]. rewrite E. field. exact N.
Qed.

Local Notation n3 := (kadd (kadd k1 k1) k1 : FrFld).
Definition fr_Y1 : FrFld := fr_mk 1482187474527227178448938421735083009819603905112696426820600688551887974862.
Definition fr_Y2 : FrFld := fr_mk 15878863383475251817007794952825254164645437250283392292777188987718606423824.
Definition fr_c1 : FrFld := fr_mk 13811243854369294822270588484069568695864267971489103922997165112621560951862.
Definition fr_c2 : FrFld := fr_mk 18226622079614763702016000247790650484645587524412254344790770120116006606087.
Definition fr_c3 : FrFld := fr_mk 134856012415816926933360275843954836998264830569419322279608267814702234493.
Lemma fr_dl_d0 : fr_dl = fr_d0.
Proof.
  assert (N : fr_mk (2 ^ 128) <> k0) by (apply keqb_neq; vm_compute; reflexivity).
  assert (E : kmul fr_d0 (fr_mk (2 ^ 128)) = kopp (fr_mk 2)) by (apply keqb_eq; vm_compute; reflexivity).
  change fr_dl with (kopp (kdiv (fr_mk 2) (fr_mk (2 ^ 128)))). revert N E. generalize (fr_mk (2 ^ 128)) (fr_mk 2) fr_d0. intros u v w N E.
  transitivity (kdiv (kopp v) u); [field; exact N|]. rewrite <- E. field. exact N.
Qed.
Lemma fr_Y1_c : fr_Y1 = kmul fr_root (kmul fr_c1 fr_c1). Proof. apply keqb_eq. vm_compute. reflexivity. Qed.
Lemma fr_Y2_c : fr_Y2 = kmul fr_root (kmul fr_c2 fr_c2). Proof. apply keqb_eq. vm_compute. reflexivity. Qed.
Lemma fr_Y_sum : kopp (kadd fr_Y1 fr_Y2) = fr_d0. Proof. apply keqb_eq. vm_compute. reflexivity. Qed.
Lemma fr_Y_prod : kmul n3 (kmul fr_Y1 fr_Y2) = kmul fr_d0 fr_d0. Proof. apply keqb_eq. vm_compute. reflexivity. Qed.
Lemma fr_D_c : ksub (kmul (kadd (kmul n3 fr_d0) k1) (kadd (kmul n3 fr_d0) k1)) (kmul (kmul (kadd (kadd k1 k1) (kadd k1 k1)) n3) (kadd (kmul fr_d0 fr_d0) fr_d0)) = kmul fr_root (kmul fr_c3 fr_c3).
Proof. apply keqb_eq. vm_compute. reflexivity. Qed.
Lemma fr_n3 : n3 <> k0. Proof. apply keqb_neq. vm_compute. reflexivity. Qed.
Lemma fr_c1_nz : fr_c1 <> k0. Proof. apply keqb_neq. vm_compute. reflexivity. Qed.
Lemma fr_c2_nz : fr_c2 <> k0. Proof. apply keqb_neq. vm_compute. reflexivity. Qed.
Lemma fr_c3_nz : fr_c3 <> k0. Proof. apply keqb_neq. vm_compute. reflexivity. Qed.
Lemma fr_Q0 (y : FrFld) : kadd (kadd (kmul (kmul n3 (kmul y y)) (kmul y y)) (kmul (kmul n3 fr_d0) (kmul y y))) (kmul fr_d0 fr_d0) <> k0.
Proof.
  rewrite <- fr_Y_prod, <- fr_Y_sum. pose proof (fr_nonsquare fr_c1 fr_Y1 y fr_c1_nz fr_Y1_c) as A. pose proof (fr_nonsquare fr_c2 fr_Y2 y fr_c2_nz fr_Y2_c) as B.
  pose proof fr_n3 as N. revert A B. generalize fr_Y1 fr_Y2. intros Y1 Y2 A B E.
  destruct (kdec FrFld (kmul y y) Y1) as [EY|NY]; [exact (A EY)|]. apply B.
  assert (Z : ksub (kmul y y) Y2 = k0).
  { apply (cancel_l FrFld (ksub (kmul y y) Y1)); [intros Z; apply NY; transitivity (kadd (ksub (kmul y y) Y1) Y1); [ring|]; rewrite Z; ring|].
    apply (cancel_l FrFld n3 _ N). rewrite <- E. ring. }
  transitivity (kadd (ksub (kmul y y) Y2) Y2); [ring|]. rewrite Z. ring.
Qed.
Lemma fr_Q1 (y : FrFld) : kadd (kadd (kmul (kmul n3 (kmul y y)) (kmul y y)) (kmul (kadd (kmul n3 fr_d0) k1) (kmul y y))) (kadd (kmul fr_d0 fr_d0) fr_d0) <> k0.
Proof.
  intros E. set (s := kadd (kmul (kmul (kadd k1 k1) n3) (kmul y y)) (kadd (kmul n3 fr_d0) k1)).
  apply (fr_nonsquare fr_c3 _ s fr_c3_nz fr_D_c). unfold s. revert E. generalize fr_d0. intros d E.
  transitivity (kadd (kmul (kmul (kadd (kadd k1 k1) (kadd k1 k1)) n3) (kadd (kadd (kmul (kmul n3 (kmul y y)) (kmul y y)) (kmul (kadd (kmul n3 d) k1) (kmul y y))) (kadd (kmul d d) d)))
    (ksub (kmul (kadd (kmul n3 d) k1) (kadd (kmul n3 d) k1)) (kmul (kmul (kadd (kadd k1 k1) (kadd k1 k1)) n3) (kadd (kmul d d) d)))); [ring|].
  rewrite E. ring.
Qed.
Lemma fr_lost_0 : fr_lost k0 = false. Proof. vm_compute. reflexivity. Qed.
Theorem C70_round_fr st c : fst (sq_mimc_round FrFld fr_sq st c) = fst (mimc_round st c) <-> no_loss fr_lost (round_squares FrFld st c).
Proof.
  apply (round_iff FrFld fr_sq fr_lost fr_d0); [rewrite <- fr_dl_d0; exact fr_dl_nz|exact fr_lost_0|intros a; rewrite <- fr_dl_d0; exact (fr_sq_form a)|intros y _; exact (fr_Q0 y)|intros y _; exact (fr_Q1 y)].
Qed.
End Fr.

(** *** Fq: of the two roots of each quadratic one is not a square and the other is the square of elements without a loss. *)
Section Fq.
Add Field hashFq : (kth FqFld).
Local Notation n3 := (kadd (kadd k1 k1) k1 : FqFld).
Definition fq_d0 : FqFld := fq_mk 16609568049914510532926374876104998545066724643776207730972812694114212392334.
Definition fq_y1 : FqFld := fq_mk 13629362392790971486173187386405050155775156894002925816002587884850390375897.
Definition fq_c2 : FqFld := fq_mk 9992999695678714849603789066336926979944598423833589042789834673748684787758.
Definition fq_y3 : FqFld := fq_mk 11717509632096006791676853832398263767450726213646405359816024272276564647695.
Definition fq_c4 : FqFld := fq_mk 18264618970352824365607637818304340948923828105864328824487765896190432457491.
Lemma fq_dl_d0 : fq_dl = fq_d0.
Proof.
  assert (N : fq_mk (2 ^ 128) <> k0) by (apply keqb_neq; vm_compute; reflexivity).
  assert (E : kmul fq_d0 (fq_mk (2 ^ 128)) = kopp (fq_mk 2)) by (apply keqb_eq; vm_compute; reflexivity).
  change fq_dl with (kopp (kdiv (fq_mk 2) (fq_mk (2 ^ 128)))). revert N E. generalize (fq_mk (2 ^ 128)) (fq_mk 2) fq_d0. intros u v w N E.
  transitivity (kdiv (kopp v) u); [field; exact N|]. rewrite <- E. field. exact N.
Qed.
Lemma fq_sum1 : ksub (kmul fq_c2 fq_c2) (kmul fq_y1 fq_y1) = fq_d0. Proof. apply keqb_eq. vm_compute. reflexivity. Qed.
Lemma fq_prod1 : kopp (kmul n3 (kmul (kmul fq_y1 fq_y1) (kmul fq_c2 fq_c2))) = kmul fq_d0 fq_d0. Proof. apply keqb_eq. vm_compute. reflexivity. Qed.
Lemma fq_sum3 : kmul n3 (ksub (kmul fq_c4 fq_c4) (kmul fq_y3 fq_y3)) = kadd (kmul n3 fq_d0) k1. Proof. apply keqb_eq. vm_compute. reflexivity. Qed.
Lemma fq_prod3 : kopp (kmul n3 (kmul (kmul fq_y3 fq_y3) (kmul fq_c4 fq_c4))) = kadd (kmul fq_d0 fq_d0) fq_d0. Proof. apply keqb_eq. vm_compute. reflexivity. Qed.
Lemma fq_n3 : n3 <> k0. Proof. apply keqb_neq. vm_compute. reflexivity. Qed.
Lemma fq_c2_nz : fq_c2 <> k0. Proof. apply keqb_neq. vm_compute. reflexivity. Qed.
Lemma fq_c4_nz : fq_c4 <> k0. Proof. apply keqb_neq. vm_compute. reflexivity. Qed.
Lemma fq_not_lost : fq_lost fq_y1 = false /\ fq_lost (kopp fq_y1) = false /\ fq_lost fq_y3 = false /\ fq_lost (kopp fq_y3) = false.
Proof. vm_compute. auto. Qed.
(** [3 (y^2 - u^2) (y^2 + c^2) = 0] only if [y = u] or [y = - u]. *)
Lemma fq_roots (y u c : FqFld) : c <> k0 -> kmul n3 (kmul (ksub (kmul y y) (kmul u u)) (kadd (kmul y y) (kmul c c))) = k0 -> y = u \/ y = kopp u.
Proof.
  intros N E. apply (cancel_l FqFld _ _ fq_n3) in E.
  assert (NC : kadd (kmul y y) (kmul c c) <> k0) by (intros Z; destruct (fq_anisotropic y c Z) as [_ ->]; exact (N eq_refl)).
  assert (Z : kmul (ksub y u) (kadd y u) = k0).
  { apply (cancel_l FqFld _ _ NC). rewrite <- E. ring. }
  destruct (kdec FqFld y u) as [->|NE]; [left; reflexivity|right].
  apply (cancel_l FqFld) in Z; [transitivity (ksub (kadd y u) u); [ring|]; rewrite Z; ring|].
  intros Z'. apply NE. transitivity (kadd (ksub y u) u); [ring|]. rewrite Z'. ring.
Qed.
Lemma fq_Q0 (y : FqFld) : fq_lost y = true -> kadd (kadd (kmul (kmul n3 (kmul y y)) (kmul y y)) (kmul (kmul n3 fq_d0) (kmul y y))) (kmul fq_d0 fq_d0) <> k0.
Proof.
  intros L E. assert (R : y = fq_y1 \/ y = kopp fq_y1).
  { apply (fq_roots y fq_y1 fq_c2 fq_c2_nz). rewrite <- fq_prod1, <- fq_sum1 in E. rewrite <- E. generalize fq_y1 fq_c2. intros. ring. }
  destruct fq_not_lost as (A & B & _ & _). destruct R as [R|R]; rewrite R in L; congruence.
Qed.
Lemma fq_Q1 (y : FqFld) : fq_lost y = true -> kadd (kadd (kmul (kmul n3 (kmul y y)) (kmul y y)) (kmul (kadd (kmul n3 fq_d0) k1) (kmul y y))) (kadd (kmul fq_d0 fq_d0) fq_d0) <> k0.
Proof.
  intros L E. assert (R : y = fq_y3 \/ y = kopp fq_y3).
  { apply (fq_roots y fq_y3 fq_c4 fq_c4_nz). rewrite <- fq_prod3, <- fq_sum3 in E. rewrite <- E. generalize fq_y3 fq_c4. intros. ring. }
  destruct fq_not_lost as (_ & _ & A & B). destruct R as [R|R]; rewrite R in L; congruence.
Qed.
Lemma fq_lost_0 : fq_lost k0 = false. Proof. vm_compute. reflexivity. Qed.
Theorem C70_round_fq st c : fst (sq_mimc_round FqFld fq_sq st c) = fst (mimc_round st c) <-> no_loss fq_lost (round_squares FqFld st c).
Proof.
  apply (round_iff FqFld fq_sq fq_lost fq_d0); [rewrite <- fq_dl_d0; exact fq_dl_nz|exact fq_lost_0|intros a; rewrite <- fq_dl_d0; exact (fq_sq_form a)|exact fq_Q0|exact fq_Q1].
Qed.
End Fq.

(** ** The whole hash. *)
Section Whole.
Variables (K : Fld) (sq : K -> K) (lost : K -> bool).
Hypothesis OK : code_square K sq lost.
Hypothesis RI : forall st c, fst (sq_mimc_round K sq st c) = fst (mimc_round st c) <-> no_loss lost (round_squares K st c).
Local Open Scope fld_scope.
Add Field wholeK : (kth K).
Lemma last_round cs c xl xr : no_loss lost (hash_squares K cs xl xr) ->
  (sq_mimc_hash K sq (cs ++ [c]) xl xr = mimc_hash (cs ++ [c]) xl xr <-> no_loss lost (round_squares K (fold_left mimc_round cs (xl, xr)) c)).
Proof.
  intros H. unfold sq_mimc_hash, mimc_hash. rewrite !fold_left_app, (rounds_exact K sq lost OK cs (xl, xr) H). cbn [fold_left]. apply RI.
Qed.
Lemma sub_back (a c : K) : a - c + c = a. Proof. ring. Qed.
Lemma add_cancel (a b c : K) : a + b = a + c -> b = c.
Proof. intros E. assert (F : - a + (a + b) = - a + (a + c)) by (rewrite E; reflexivity). transitivity (- a + (a + b)); [ring|]. rewrite F. ring. Qed.
(** Every state of the rounds is reached from some input. *)
Lemma preimage cs : forall a b : K, exists xl xr, fold_left mimc_round cs (xl, xr) = (a, b).
Proof.
  induction cs as [|c cs IH]; intros a b; [exists a, b; reflexivity|]. destruct (IH a b) as (a' & b' & E). cbn [fold_left].
  exists b', (a' - (b' + c) * (b' + c) * ((b' + c) * (b' + c) * ((b' + c) * (b' + c))) * (b' + c)). rewrite <- E. apply f_equal. unfold mimc_round. apply f_equal2; [ring|reflexivity].
Qed.
End Whole.
(** If no round but the last loses a carry, the native hash is right exactly when the last round loses none. *)
Theorem C70_last_round :
  (forall cs c xl xr, no_loss fr_lost (hash_squares FrFld cs xl xr) ->
    (sq_mimc_hash FrFld fr_sq (cs ++ [c]) xl xr = mimc_hash (cs ++ [c]) xl xr <-> no_loss fr_lost (round_squares FrFld (fold_left mimc_round cs (xl, xr)) c))) /\
  (forall cs c xl xr, no_loss fq_lost (hash_squares FqFld cs xl xr) ->
    (sq_mimc_hash FqFld fq_sq (cs ++ [c]) xl xr = mimc_hash (cs ++ [c]) xl xr <-> no_loss fq_lost (round_squares FqFld (fold_left mimc_round cs (xl, xr)) c))).
Proof. split; intros cs c xl xr; [apply (last_round FrFld fr_sq fr_lost (proj1 C70_fields) C70_round_fr)|apply (last_round FqFld fq_sq fq_lost (proj2 C70_fields) C70_round_fq)]. Qed.

(** An element of each field whose square loses the carry. *)
Definition fr_bad : FrFld := exist _ bad eq_refl.
Definition fq_bad : FqFld := exist _ bad eq_refl.
Lemma fr_bad_lost : fr_lost fr_bad = true. Proof. exact bad_drops. Qed.
Lemma fq_bad_lost : fq_lost fq_bad = true. Proof. exact bad_drops. Qed.
(** Whatever the constants, the last round loses a carry on some inputs. *)
Theorem C70_loss_occurs :
  (forall cs c, exists xl xr, ~ no_loss fr_lost (round_squares FrFld (fold_left mimc_round cs (xl, xr)) c)) /\
  (forall cs c, exists xl xr, ~ no_loss fq_lost (round_squares FqFld (fold_left mimc_round cs (xl, xr)) c)).
Proof.
  split; intros cs c.
  - destruct (preimage FrFld cs (ksub fr_bad c) k0) as (xl & xr & E). exists xl, xr. rewrite E. intros H.
    pose proof (H _ (or_introl eq_refl)) as L. cbn [fst] in L. rewrite (sub_back FrFld fr_bad c), fr_bad_lost in L. discriminate L.
  - destruct (preimage FqFld cs (ksub fq_bad c) k0) as (xl & xr & E). exists xl, xr. rewrite E. intros H.
    pose proof (H _ (or_introl eq_refl)) as L. cbn [fst] in L. rewrite (sub_back FqFld fq_bad c), fq_bad_lost in L. discriminate L.
Qed.
(** So for every round constant the native hash of one round, and the native transcript of one element, is wrong on some
    element, and there the value the circuit enforces ([mimc_hash], C44) is not the native one. *)
Theorem C70_one_round_refuted :
  (forall c xr, exists xl, sq_mimc_hash FrFld fr_sq [c] xl xr <> mimc_hash [c] xl xr) /\
  (forall c, exists v, sq_mimc_absorb FrFld fr_sq [c] [v] <> mimc_absorb [c] [v]) /\
  (forall c xr, exists xl, sq_mimc_hash FqFld fq_sq [c] xl xr <> mimc_hash [c] xl xr) /\
  (forall c, exists v, sq_mimc_absorb FqFld fq_sq [c] [v] <> mimc_absorb [c] [v]).
Proof.
  assert (A : forall c xr, sq_mimc_hash FrFld fr_sq [c] (ksub fr_bad c) xr <> mimc_hash [c] (ksub fr_bad c) xr).
  { intros c xr E. apply (proj1 (proj1 C70_last_round [] c (ksub fr_bad c) xr (fun a (I : In a []) => match I with end))) in E.
    pose proof (E _ (or_introl eq_refl)) as L. cbn [fold_left fst] in L. rewrite (sub_back FrFld fr_bad c), fr_bad_lost in L. discriminate L. }
  assert (B : forall c xr, sq_mimc_hash FqFld fq_sq [c] (ksub fq_bad c) xr <> mimc_hash [c] (ksub fq_bad c) xr).
  { intros c xr E. apply (proj1 (proj2 C70_last_round [] c (ksub fq_bad c) xr (fun a (I : In a []) => match I with end))) in E.
    pose proof (E _ (or_introl eq_refl)) as L. cbn [fold_left fst] in L. rewrite (sub_back FqFld fq_bad c), fq_bad_lost in L. discriminate L. }
  split; [|split; [|split]].
  - intros c xr. exists (ksub fr_bad c). apply A.
  - intros c. exists (ksub fr_bad c). intros E. unfold sq_mimc_absorb, mimc_absorb in E. cbn [fold_left] in E. apply (add_cancel FrFld) in E. exact (A _ _ E).
  - intros c xr. exists (ksub fq_bad c). apply B.
  - intros c. exists (ksub fq_bad c). intros E. unfold sq_mimc_absorb, mimc_absorb in E. cbn [fold_left] in E. apply (add_cancel FqFld) in E. exact (B _ _ E).
Qed.

(** With the library's own 46 constants over Fr (MimcData.v) there is such an input for the full hash. *)
Definition no_loss_b {K : Fld} (lost : K -> bool) (l : list K) : bool := forallb (fun a => negb (lost a)) l.
Lemma no_loss_dec {K : Fld} (lost : K -> bool) l : no_loss_b lost l = true -> no_loss lost l.
Proof. intros H a I. apply (proj1 (forallb_forall _ _) H a) in I. destruct (lost a); [discriminate I|reflexivity]. Qed.
(** The same run on residues, to decide such conditions on concrete inputs. *)
Section Residues.
Variables (P : fparams) (m : Z).
Hypothesis OKP : params_ok P m.
Hypothesis PR : prime m.
Local Notation K := (LimbFld P m OKP PR).
Local Notation mk := (lf_mk P m OKP).
Local Notation vl := (lf_val P m).
Definition z_round (st : Z * Z) (c : Z) : Z * Z :=
  let '(a, b) := st in let y := (a + c) mod m in let y2 := (y * y) mod m in let y4 := (y2 * y2) mod m in
  (((y2 * y4) mod m * y mod m + b) mod m, a).
Fixpoint z_rounds (cs : list Z) (st : Z * Z) : list Z :=
  match cs with [] => [] | c :: l => let y := (fst st + c) mod m in y :: (y * y) mod m :: z_rounds l (z_round st c) end.
Definition limbs_of (c : Z) : l4 := L4 (c mod 2 ^ 64) (c / 2 ^ 64 mod 2 ^ 64) (c / 2 ^ 128 mod 2 ^ 64) (c / 2 ^ 192 mod 2 ^ 64).
Lemma limbs_of_ok c : 0 <= c < 2 ^ 256 -> wf (limbs_of c) /\ val (limbs_of c) = c.
Proof.
  intros Hc. split.
  - unfold wf, word, limbs_of; cbn [w0 w1 w2 w3]; rewrite Bval; change (2 ^ 64) with 18446744073709551616; repeat split; apply Z.mod_pos_bound; lia.
  - pose proof (digits_lev (2 ^ 64) 4 c ltac:(lia)) as D. unfold digits in D. cbn [seq map] in D.
    change ((2 ^ 64) ^ Z.of_nat 0) with 1 in D. change ((2 ^ 64) ^ Z.of_nat 1) with (2 ^ 64) in D.
    change ((2 ^ 64) ^ Z.of_nat 2) with (2 ^ 128) in D. change ((2 ^ 64) ^ Z.of_nat 3) with (2 ^ 192) in D.
    change ((2 ^ 64) ^ Z.of_nat 4) with (2 ^ 256) in D. rewrite Z.div_1_r, (Z.mod_small c (2 ^ 256)) in D by lia.
    rewrite <- limbs_lev. exact D.
Qed.
Definition z_lost (y : Z) : bool := drops_carry (limbs_of (y * 2 ^ 256 mod m)).
Definition zst (st : K * K) : Z * Z := (vl (fst st), vl (snd st)).
Lemma z_lost_spec (a : K) : z_lost (vl a) = drops_carry (lf_limbs m a).
Proof.
  unfold z_lost. f_equal. pose proof (m_half P m OKP) as Hm. rewrite B4 in Hm. destruct (lf_rep P m OKP a) as (W & _ & E). rewrite B4 in E.
  assert (Hc : 0 <= vl a * 2 ^ 256 mod m < 2 ^ 256) by (pose proof (lf_val_range P m OKP a); pose proof (Z.mod_pos_bound (vl a * 2 ^ 256) m ltac:(lia)); lia).
  destruct (limbs_of_ok _ Hc) as [W' E']. apply val_inj; [exact W'|exact W|]. rewrite E', E. reflexivity.
Qed.
Lemma z_round_spec st c : c mod m = c -> zst (mimc_round st (mk c : K)) = z_round (zst st) c.
Proof.
  intros Hc. destruct st as [a b]. unfold zst, mimc_round, z_round. cbn [fst snd]. apply f_equal2; [|reflexivity].
  cbn [kadd kmul K]. rewrite !lf_val_add, !lf_val_mul, lf_val_add, lf_val_mk, Hc. reflexivity.
Qed.
Lemma z_rounds_spec cs : Forall (fun c => c mod m = c) cs -> forall st, map vl (rounds_squares K (map mk cs) st) = z_rounds cs (zst st).
Proof.
  induction 1 as [|c cs Hc _ IH]; intros st; [reflexivity|]. cbn [map rounds_squares z_rounds]. rewrite map_app. cbn [map round_squares app].
  rewrite IH, (z_round_spec st c Hc). unfold zst at 2 3. cbn [fst kadd kmul K]. rewrite lf_val_mul, lf_val_add, lf_val_mk, Hc. reflexivity.
Qed.
Lemma fold_step {A C} (f : A -> C -> A) c cs st : fold_left f (c :: cs) st = fold_left f cs (f st c). Proof. reflexivity. Qed.
Lemma z_fold_spec cs : Forall (fun c => c mod m = c) cs -> forall st : K * K, zst (fold_left (@mimc_round K) (map mk cs) st) = fold_left z_round cs (zst st).
Proof.
  induction 1 as [|c cs Hc _ IH]; intros st; [reflexivity|].
  rewrite (fold_step z_round), <- (z_round_spec st c Hc), map_cons, (fold_step (@mimc_round K)). apply IH.
Qed.
Lemma z_no_loss l : forallb (fun y => negb (z_lost y)) (map vl l) = true -> no_loss (K := K) (fun a : K => drops_carry (lf_limbs m a)) l.
Proof.
  intros H a I. rewrite <- z_lost_spec. apply (in_map vl) in I. apply (proj1 (forallb_forall _ _) H) in I. destruct (z_lost (vl a)); [discriminate I|reflexivity].
Qed.
Lemma z_loss l : existsb z_lost (map vl l) = true -> ~ no_loss (K := K) (fun a : K => drops_carry (lf_limbs m a)) l.
Proof.
  intros H N. apply existsb_exists in H as (y & I & E). apply in_map_iff in I as (a & <- & I). rewrite z_lost_spec, (N a I) in E. discriminate E.
Qed.
End Residues.
Definition z_reduced (m : Z) (l : list Z) : bool := forallb (fun c => (0 <=? c) && (c <? m)) l.
Lemma z_reduced_ok m l : z_reduced m l = true -> Forall (fun c => c mod m = c) l.
Proof. intros H. apply Forall_forall. intros c I. apply (proj1 (forallb_forall _ _) H c) in I. apply andb_true_iff in I as [I J]. apply Z.mod_small. split; [apply Z.leb_le, I|apply Z.ltb_lt, J]. Qed.
(** One pass: no loss in all rounds but the last, a loss in the last. *)
Fixpoint z_only_last (m : Z) (cs : list Z) (st : Z * Z) : bool :=
  match cs with
  | [] => false
  | c :: l => let y := (fst st + c) mod m in
      match l with [] => z_lost m y | _ => negb (z_lost m y) && negb (z_lost m ((y * y) mod m)) && z_only_last m l (z_round m st c) end
  end.
Lemma z_only_last_ok m cs : forall c st, z_only_last m (cs ++ [c]) st = true ->
  forallb (fun y => negb (z_lost m y)) (z_rounds m cs st) = true /\ existsb (z_lost m) (z_rounds m [c] (fold_left (z_round m) cs st)) = true.
Proof.
  induction cs as [|c0 cs IH]; intros c st H.
  - split; [reflexivity|]. cbn [app z_only_last fold_left z_rounds existsb] in *. rewrite H. reflexivity.
  - assert (E : z_only_last m ((c0 :: cs) ++ [c]) st = negb (z_lost m ((fst st + c0) mod m)) && negb (z_lost m ((((fst st + c0) mod m) * ((fst st + c0) mod m)) mod m)) && z_only_last m (cs ++ [c]) (z_round m st c0)) by (destruct cs; reflexivity).
    rewrite E in H. apply andb_true_iff in H as [H H3]. apply andb_true_iff in H as [H1 H2]. destruct (IH c _ H3) as [A B].
    cbn [z_rounds forallb fold_left] in *. rewrite H1, H2, A. split; [reflexivity|exact B].
Qed.
Section Library.
Variables (P : fparams) (m : Z) (OKP : params_ok P m) (PR : prime m).
Local Notation K := (LimbFld P m OKP PR).
Local Notation mk := (lf_mk P m OKP).
Local Notation lost := (fun a : K => drops_carry (lf_limbs m a)).
Lemma only_last_loses cs c xl xr : z_reduced m (xl :: xr :: cs ++ [c]) = true -> z_only_last m (cs ++ [c]) (xl, xr) = true ->
  no_loss lost (hash_squares K (map mk cs) (mk xl) (mk xr)) /\
  ~ no_loss lost (round_squares K (fold_left (@mimc_round K) (map mk cs) (mk xl, mk xr)) (mk c)).
Proof.
  intros R H. apply z_only_last_ok in H as [A B]. apply z_reduced_ok in R.
  pose proof (Forall_inv R) as Rl. apply Forall_inv_tail in R. pose proof (Forall_inv R) as Rr. apply Forall_inv_tail in R. apply Forall_app in R as [R Rc].
  assert (Z0 : zst P m OKP PR (@pair K K (mk xl) (mk xr)) = (xl, xr)) by (unfold zst; cbn [fst snd]; rewrite !lf_val_mk, Rl, Rr; reflexivity).
  split.
  - apply (z_no_loss P m OKP PR). pose proof (z_rounds_spec P m OKP PR cs R (@pair K K (mk xl) (mk xr))) as E. rewrite Z0 in E. rewrite <- E in A. exact A.
  - apply (z_loss P m OKP PR). rewrite <- Z0, <- (z_fold_spec P m OKP PR cs R), <- (z_rounds_spec P m OKP PR [c] Rc) in B. exact B.
Qed.
End Library.
Lemma fr_only_last : z_reduced R_MOD (fr_mimc_xl :: fr_mimc_xr :: removelast fr_mimc ++ [last fr_mimc 0]) = true /\
  z_only_last R_MOD (removelast fr_mimc ++ [last fr_mimc 0]) (fr_mimc_xl, fr_mimc_xr) = true.
Proof. vm_compute. split; reflexivity. Qed.
Lemma map_last {A} (f : Z -> A) l : l <> [] -> map f l = map f (removelast l) ++ [f (last l 0)].
Proof. intros N. rewrite (app_removelast_last 0 N) at 1. rewrite map_app. reflexivity. Qed.
Theorem C70_library_constants_refuted :
  exists xl xr, sq_mimc_hash FrFld fr_sq (map fr_mk fr_mimc) xl xr <> mimc_hash (map fr_mk fr_mimc) xl xr.
Proof.
  exists (fr_mk fr_mimc_xl), (fr_mk fr_mimc_xr). rewrite (map_last fr_mk fr_mimc) by discriminate.
  destruct (only_last_loses fr R_MOD fr_ok R_MOD_prime _ _ _ _ (proj1 fr_only_last) (proj2 fr_only_last)) as [A B].
  intros X. apply B. exact (proj1 (proj1 C70_last_round _ _ _ _ A) X).
Qed.

(** The hypotheses are met: the first 45 rounds of the run above lose no carry, and a transcript of two elements over two
    rounds loses none. *)
Example C70_exact_run : no_loss fr_lost (hash_squares FrFld (map fr_mk (removelast fr_mimc)) (fr_mk fr_mimc_xl) (fr_mk fr_mimc_xr)).
Proof. exact (proj1 (only_last_loses fr R_MOD fr_ok R_MOD_prime _ _ _ _ (proj1 fr_only_last) (proj2 fr_only_last))). Qed.
Example C70_exact_transcript : no_loss fr_lost (absorb_squares FrFld [fr_mk 5; fr_mk 6] [fr_mk 1; fr_mk 2]).
Proof. apply no_loss_dec. vm_compute. reflexivity. Qed.
