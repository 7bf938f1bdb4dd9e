(** nova/src/ivc.rs and proof.rs: incrementally verifiable computation on a cycle of two curves. *)
From Coq Require Import ZArith List Bool.
From Verif Require Import Algebra GroupLib R1csModel NovaModel BigNatModel AugmentedModel.
Import ListNotations.
Local Open Scope fld_scope.

Section Ivc.
(** [R] and [Q]: the scalar fields of [E1] and [E2]; each is the base field of the other. *)
Variables (R Q : pfield) (E1 : driver Q R) (E2 : driver R Q) (FC1 : fcircuit R) (FC2 : fcircuit Q).

(** ivc.rs:250-263 [PublicParams]. *)
Record pparams := mkPp { pp_sh1 : shape R; pp_sh2 : shape Q; pp_ck1 : list (d_pt E1); pp_ck2 : list (d_pt E2) }.
(** ivc.rs:272-319 [setup].  Simplified: the generators, random points in the code, are arguments, of any number. *)
Definition setup (ck1 : list (d_pt E1)) (ck2 : list (d_pt E2)) : option pparams :=
  match generate FC1 (mkAug (C := E2) true 0 [0] None None None None) (r1cs_default R),
        generate FC2 (mkAug (C := E1) false 0 [0] None None None None) (r1cs_default Q) with
  | Some (_, cs1), Some (_, cs2) => Some (mkPp (shape_of cs1) (shape_of cs2) ck1 ck2)
  | _, _ => None
  end.

(** ivc.rs:15-42 [Ivc] without the two provers, which hold copies of the parameters. *)
Record ivc := mkIvc { iv_i : Z; iv_z01 : list R; iv_z02 : list Q; iv_zi1 : list R; iv_zi2 : list Q;
  iv_us2 : inst E2; iv_ws2 : list Q; iv_ur1 : rinst E1; iv_wr1 : rwit R; iv_ur2 : rinst E2; iv_wr2 : rwit Q }.
(** proof.rs:11-35 [RecursiveProof]: the same fields. *)
Record rproof := mkProof { rp_i : Z; rp_z01 : list R; rp_z02 : list Q; rp_zi1 : list R; rp_zi2 : list Q;
  rp_us2 : inst E2; rp_ws2 : list Q; rp_ur1 : rinst E1; rp_wr1 : rwit R; rp_ur2 : rinst E2; rp_wr2 : rwit Q }.

(** [x.value(&cs)] for every [x]. *)
Fixpoint values_of {F : Fld} (cs : r1cs F) (l : list (row F)) : option (list F) :=
  match l with
  | [] => Some []
  | r :: l => match row_evaluate r (r_x cs) (r_w cs), values_of cs l with Some v, Some vs => Some (v :: vs) | _, _ => None end
  end.
(** Running an augmented circuit and committing (ivc.rs:56-70, 73-87, 167-181, 191-205): the instance, the
    witness and the values returned. *)
Definition invocation {B S : pfield} {C : driver B S} (D : driver S B) (FC : fcircuit B) (c : aug C) (sh : shape B) (ck : list (d_pt D)) : option (inst D * list B * list B) :=
  match generate FC c (r1cs_default B) with
  | None => None
  | Some (z, cs) =>
      match r1cs_instance_and_witness D cs sh ck, values_of cs z with
      | Some (u, w), Some zv => Some (u, w, zv)
      | _, _ => None
      end
  end.

(** ivc.rs:51-130 [init]. *)
Definition init (pp : pparams) (z01 : list R) (z02 : list Q) : option ivc :=
  match invocation E1 FC1 (mkAug (C := E2) true 0 z01 None None None None) (pp_sh1 pp) (pp_ck1 pp) with
  | None => None
  | Some (u1, w1, zi1) =>
      match invocation E2 FC2 (mkAug (C := E1) false 0 z02 None (Some u1) None None) (pp_sh2 pp) (pp_ck2 pp) with
      | None => None
      | Some (u2, w2, zi2) =>
          Some (mkIvc 0 z01 z02 zi1 zi2 u2 w2 (from_r1cs_instance u1) (from_r1cs_witness (pp_sh1 pp) w1)
                  (rinst_dummy E2 (sh_l (pp_sh2 pp))) (rwit_dummy (sh_w (pp_sh2 pp)) (sh_m (pp_sh2 pp))))
      end
  end.

Definition proof_of (s : ivc) : rproof :=
  mkProof (iv_i s) (iv_z01 s) (iv_z02 s) (iv_zi1 s) (iv_zi2 s) (iv_us2 s) (iv_ws2 s) (iv_ur1 s) (iv_wr1 s) (iv_ur2 s) (iv_wr2 s).
(** ivc.rs:132-247 [prove_step]; [z_next] (ivc.rs:158) is not used.  [None] also for a counter past
    [u64::MAX], a panic in a checked build. *)
Definition prove_step (pp : pparams) (s : ivc) : option (ivc * rproof) :=
  if (iv_i s =? 0)%Z then
    let s' := mkIvc 1 (iv_z01 s) (iv_z02 s) (iv_zi1 s) (iv_zi2 s) (iv_us2 s) (iv_ws2 s) (iv_ur1 s) (iv_wr1 s) (iv_ur2 s) (iv_wr2 s) in
    Some (s', proof_of s')
  else
    match fold_prove (pp_sh2 pp) (pp_ck2 pp) (iv_ur2 s) (iv_wr2 s) (iv_us2 s) (iv_ws2 s) with
    | None => None
    | Some (ur2, wr2, t2) =>
        match invocation E1 FC1 (mkAug (C := E2) true (iv_i s) (iv_z01 s) (Some (iv_zi1 s)) (Some (iv_us2 s)) (Some (iv_ur2 s)) (Some t2)) (pp_sh1 pp) (pp_ck1 pp) with
        | None => None
        | Some (u1, w1, zi1) =>
            match fold_prove (pp_sh1 pp) (pp_ck1 pp) (iv_ur1 s) (iv_wr1 s) u1 w1 with
            | None => None
            | Some (ur1, wr1, t1) =>
                match invocation E2 FC2 (mkAug (C := E1) false (iv_i s) (iv_z02 s) (Some (iv_zi2 s)) (Some u1) (Some (iv_ur1 s)) (Some t1)) (pp_sh2 pp) (pp_ck2 pp) with
                | None => None
                | Some (u2, w2, zi2) =>
                    if (iv_i s + 1 <? 2 ^ 64)%Z then
                      let s' := mkIvc (iv_i s + 1) (iv_z01 s) (iv_z02 s) zi1 zi2 u2 w2 ur1 wr1 ur2 wr2 in
                      Some (s', proof_of s')
                    else None
                end
            end
        end
    end.

(** proof.rs:44-80 [verify]. *)
Definition verify (pp : pparams) (p : rproof) : option bool :=
  if negb (Nat.eqb (length (i_x (rp_us2 p))) 2) || negb (Nat.eqb (length (ri_x (rp_ur1 p))) 2) || negb (Nat.eqb (length (ri_x (rp_ur2 p))) 2)
  then Some false
  else
    match rinst_hash (rp_ur2 p) (rp_i p) (rp_z01 p) (rp_zi1 p), rinst_hash (rp_ur1 p) (rp_i p) (rp_z02 p) (rp_zi2 p),
          nth_error (i_x (rp_us2 p)) 0, nth_error (i_x (rp_us2 p)) 1 with
    | Some h1, Some h2, Some x0, Some x1 =>
        if negb (keqb h1 x0) || negb (keqb h2 (transfer Q R x1)) then Some false
        else
          match is_sat_relaxed (pp_sh1 pp) (rp_ur1 p) (rp_wr1 p) with
          | Some true =>
              match is_sat_relaxed (pp_sh2 pp) (rp_ur2 p) (rp_wr2 p) with
              | Some true => is_sat_single (pp_sh2 pp) (pp_ck2 pp) (rp_us2 p) (rp_ws2 p)
              | o => o
              end
          | o => o
          end
    | _, _, _, _ => None
    end.

(** [n] calls of [prove_step], and the last proof. *)
Fixpoint prove_steps (pp : pparams) (s : ivc) (n : nat) : option (ivc * rproof) :=
  match n with
  | O => Some (s, proof_of s)
  | S n => match prove_steps pp s n with Some (s, _) => prove_step pp s | None => None end
  end.
End Ivc.
Arguments mkPp {R Q E1 E2}. Arguments pp_sh1 {R Q E1 E2}. Arguments pp_sh2 {R Q E1 E2}. Arguments pp_ck1 {R Q E1 E2}. Arguments pp_ck2 {R Q E1 E2}.
Arguments mkIvc {R Q E1 E2}. Arguments iv_i {R Q E1 E2}. Arguments iv_z01 {R Q E1 E2}. Arguments iv_z02 {R Q E1 E2}. Arguments iv_zi1 {R Q E1 E2}. Arguments iv_zi2 {R Q E1 E2}.
Arguments iv_us2 {R Q E1 E2}. Arguments iv_ws2 {R Q E1 E2}. Arguments iv_ur1 {R Q E1 E2}. Arguments iv_wr1 {R Q E1 E2}. Arguments iv_ur2 {R Q E1 E2}. Arguments iv_wr2 {R Q E1 E2}.
Arguments mkProof {R Q E1 E2}. Arguments rp_i {R Q E1 E2}. Arguments rp_z01 {R Q E1 E2}. Arguments rp_z02 {R Q E1 E2}. Arguments rp_zi1 {R Q E1 E2}. Arguments rp_zi2 {R Q E1 E2}.
Arguments rp_us2 {R Q E1 E2}. Arguments rp_ws2 {R Q E1 E2}. Arguments rp_ur1 {R Q E1 E2}. Arguments rp_wr1 {R Q E1 E2}. Arguments rp_ur2 {R Q E1 E2}. Arguments rp_wr2 {R Q E1 E2}.
Arguments setup {R Q E1 E2}. Arguments init {R Q E1 E2}. Arguments prove_step {R Q E1 E2}. Arguments prove_steps {R Q E1 E2}. Arguments proof_of {R Q E1 E2}. Arguments verify {R Q E1 E2}.
