(** Property C24: multi-scalar multiplication. *)
From Coq Require Import ZArith List Bool Lia.
From Verif Require Import LimbModel FieldModel FieldSpec FieldMore ClaimsField Algebra ExtModel ExtParams ExtProofs ExtFrob CurveSpec CurveGroup
  WeierModel WeierProofs GroupLib CurveAb CurveParams MsmModel MsmProofs ClaimsCurve.
Import ListNotations.
Local Open Scope Z_scope.

(** Over the common prefix of scalars and bases, for every length a slice can have. *)
Theorem C24_msm (K : Fld) (b b3 : K) P m bases coeffs ks : curve_ok K b b3 -> bn_field P m ->
  Forall (fun p => on_curve b (aff_pt K p)) bases -> Forall2 (represents m) coeffs ks -> Z.of_nat (length bases) < 2 ^ 64 ->
  exists r, msm K b3 P bases coeffs = Some r /\
    proj_pt K r = pt_sum (map (fun v => pt_mul (Z.to_nat (fst v)) (snd v)) (combine ks (map (aff_pt K) bases))).
Proof.
  intros (Hb3 & two & three & bnz) F HB HC L.
  assert (EA : exists As, Forall2 (areps K b two three bnz) bases As).
  { clear - HB. induction HB as [|p bases Hp HB IH]; [exists []; constructor|]. destruct IH as [As IH].
    exists (cmk K b _ Hp :: As). constructor; [reflexivity|exact IH]. }
  destruct EA as [As HA].
  destruct (msm_ok K b b3 Hb3 two three bnz P m coeffs ks bases As F HC HA L) as (r & E & R).
  exists r. split; [exact E|]. unfold reps in R. rewrite R, cval_sum, map_map. f_equal.
  clear - HC HA. revert bases As HA. induction HC as [|co k coeffs ks Hk HC IH]; intros bases As HA; [reflexivity|].
  destruct HA as [|p A bases As Hp HA]; [reflexivity|]. cbn [combine map fst snd]. f_equal; [|apply IH, HA].
  rewrite cval_zmul. unfold pt_zmul. destruct (Z.ltb_spec k 0); [destruct Hk as (_ & R & _); lia|].
  rewrite Hp. reflexivity.
Qed.
(** Five bases use windows of three bits; the scalars include zero and one with the top digit set. *)
Definition g1_six : list (aff FqFld) := repeat g1_G 4 ++ [to_affine FqFld g1_2G].
Example C24_case : exists r, msm FqFld g1_param_b3 fr g1_six
    [ffrom_u64 fr 0; ffrom_u64 fr 1; ffrom_u64 fr 7; ffrom_u64 fr 8; fneg fr (ffrom_u64 fr 1)] = Some r /\
  proj_pt FqFld r = pt_sum (map (fun v => pt_mul (Z.to_nat (fst v)) (snd v)) (combine [0; 1; 7; 8; R_MOD - 1] (map (aff_pt FqFld) g1_six))).
Proof.
  assert (R0 : forall v, 0 <= v < 10 -> represents R_MOD (ffrom_u64 fr v) v).
  { intros v Hv. pose proof (C04_from_u64 fr R_MOD v (or_introl (conj eq_refl eq_refl)) ltac:(lia)) as R.
    rewrite Z.mod_small in R by (split; [lia|]; rewrite R_MOD_val; lia). exact R. }
  apply (C24_msm FqFld g1_param_b g1_param_b3 fr R_MOD); [exact g1_ok|left; split; reflexivity| | |vm_compute; reflexivity].
  - unfold g1_six. apply Forall_app. split.
    + repeat (apply Forall_cons; [exact g1_generator_on|]). apply Forall_nil.
    + apply Forall_cons; [|apply Forall_nil]. rewrite to_affine_ok. exact (proj1 (proj2 C18_case)).
  - do 4 (apply Forall2_cons; [apply R0; lia|]). apply Forall2_cons; [|apply Forall2_nil].
    pose proof (C01_neg fr R_MOD _ _ (or_introl (conj eq_refl eq_refl)) (R0 1 ltac:(lia))) as N.
    replace (R_MOD - 1) with ((- (1)) mod R_MOD) by (rewrite R_MOD_val; reflexivity). exact N.
Qed.
