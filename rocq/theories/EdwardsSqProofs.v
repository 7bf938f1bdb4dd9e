(** The Edwards operations with the limb [square]: when they are the exact ones, and when they are not. *)
From Coq Require Import ZArith List Bool Field Lia.
From Verif Require Import LimbModel FieldModel Algebra GroupLib EdwardsModel EdwardsSpec EdwardsProofs EdwardsSqModel.
Import ListNotations.
Local Open Scope fld_scope.

Section Exact.
Variable K : Fld.
Variable sq : K -> K.
Variable d : K.
Add Field EsqF : (kth K).
Definition esq_exact (l : list K) : Prop := Forall (fun a => sq a = ksq a) l.
Lemma eex_double_affine p : esq_exact (ed_double_affine_squares K p) -> sqe_double_affine K sq d p = ed_double_affine K d p.
Proof.
  destruct p as [x y]. intros H. inversion_clear H as [|? ? E1 H']. inversion_clear H' as [|? ? E2 H'']. inversion_clear H'' as [|? ? E3 _].
  cbn [eax eay] in *. unfold sqe_double_affine, ed_double_affine. rewrite E1, E2, E3. reflexivity.
Qed.
Lemma eex_double_ext p : esq_exact (ed_double_ext_squares K p) -> sqe_double_ext K sq p = ed_double_ext K p.
Proof.
  destruct p as [x y t z]. intros H. inversion_clear H as [|? ? E1 H']. inversion_clear H' as [|? ? E2 H'']. inversion_clear H'' as [|? ? E3 _].
  cbn [eex eey eez] in *. unfold sqe_double_ext, ed_double_ext. rewrite E1, E2, E3. reflexivity.
Qed.
Lemma eex_on_curve p : esq_exact (ed_on_curve_squares K p) -> sqe_aff_is_on_curve K sq d p = eaff_is_on_curve K d p.
Proof.
  unfold ed_on_curve_squares, sqe_aff_is_on_curve, eaff_is_on_curve. destruct (kis0 (eax p)); [reflexivity|].
  intros H. inversion_clear H as [|? ? E H']. inversion_clear H' as [|? ? E' _]. rewrite E, E'. reflexivity.
Qed.
Lemma eex_digits point ds : forall res, esq_exact (ed_digits_squares K d point res ds) ->
  fold_left (sqe_scalar_step K sq d point) ds res = fold_left (ed_scalar_step K d point) ds res.
Proof.
  induction ds as [|n ds IH]; [reflexivity|]. intros res H. cbn [ed_digits_squares fold_left] in *. apply Forall_app in H as [H1 H2].
  assert (E : sqe_scalar_step K sq d point res n = ed_scalar_step K d point res n).
  { unfold sqe_scalar_step, ed_scalar_step. rewrite (eex_double_ext res H1). reflexivity. }
  rewrite E. apply IH, H2.
Qed.
Lemma eex_scalar P point k : esq_exact (ed_scalar_squares K d P point k) -> sqe_scalar_point K sq d P point k = ed_scalar_point K d P point k.
Proof.
  unfold ed_scalar_squares, sqe_scalar_point, ed_scalar_point. destruct (fto_nafs P k) as [ds|]; [|reflexivity].
  intros H. unfold sqe_scalar_digits, ed_scalar_digits. rewrite (eex_digits point ds _ H). reflexivity.
Qed.

(** A [square] that is off by a constant on some elements. *)
Variable dr : K -> bool.
Variable dl : K.
Hypothesis SQ : forall a, sq a = a * a + (if dr a then dl else 0).
Hypothesis DL : dl <> 0.
Hypothesis DR0 : dr 0 = false.
Hypothesis EC : ed_complete d.
Notation on := (ed_on d).
Lemma ek_cancel (u v w : K) : u + v = u + w -> v = w.
Proof. intros E. transitivity (u + v - u); [ring|]. rewrite E. ring. Qed.
Lemma ek_sub (u v : K) : u = v -> u - v = 0. Proof. intros ->. ring. Qed.
Lemma ek_unsub (u v : K) : u - v = 0 -> u = v. Proof. intros E. transitivity (u - v + v); [ring|]. rewrite E. ring. Qed.
(** [d u^2] is neither 1 nor -1. *)
Lemma d_plus (u : K) : d * (u * u) <> 1.
Proof.
  intros E. assert (N : u <> 0). { intros ->. apply (ec_two d EC). assert (O : (1 : K) = 0) by (rewrite <- E; ring). rewrite O. ring. }
  apply (ec_d d EC (1 / u)). transitivity (d * (u * u) / (u * u)); [rewrite E; field; exact N|field; exact N].
Qed.
Lemma d_minus (u : K) : d * (u * u) <> - (1).
Proof.
  intros E. destruct (ec_i d EC) as [i I]. apply (d_plus (i * u)). transitivity (d * (u * u) * (i * i)); [ring|]. rewrite E, I. ring.
Qed.

Lemma e_on_curve_iff x y : on (x, y) -> x <> 0 ->
  (sqe_aff_is_on_curve K sq d (mkEaff x y) = true <->
   (dr x = false /\ dr y = false) \/ (dr x = true /\ dr y = true /\ x * x + y * y + dl = 0)).
Proof.
  intros H NX. cbn in H. unfold sqe_aff_is_on_curve, kis0. cbn [eax eay]. destruct (keqb_spec K x 0) as [|_]; [contradiction|]. rewrite (keqb_eq K), !SQ.
  assert (H' : y * y = 1 + d * (x * x) * (y * y) + x * x) by (transitivity (y * y - x * x + x * x); [ring|rewrite H; ring]).
  destruct (dr x) eqn:DX, (dr y) eqn:DY.
  - split.
    + intros E. right. split; [reflexivity|]. split; [reflexivity|].
      assert (E1 : d * dl * (x * x + y * y + dl) = 0).
      { transitivity (((1 + d * (x * x + dl) * (y * y + dl) + (x * x + dl)) - (y * y + dl)) - ((1 + d * (x * x) * (y * y) + x * x) - y * y)); [ring|].
        rewrite <- E, <- H'. ring. }
      apply kmul_eq0 in E1 as [E1|E1]; [|exact E1]. apply kmul_eq0 in E1 as [E1|E1]; [|contradiction].
      exfalso. apply (ec_d d EC 0). rewrite E1. ring.
    + intros [[? _]|(_ & _ & E)]; [discriminate|]. apply ek_unsub.
      transitivity ((y * y - (1 + d * (x * x) * (y * y) + x * x)) - d * dl * (x * x + y * y + dl)); [ring|]. rewrite E, <- H'. ring.
  - split; [|intros [[? _]|(_ & ? & _)]; discriminate]. intros E. exfalso.
    assert (E1 : dl * (1 + d * (y * y)) = 0).
    { transitivity ((1 + d * (x * x + dl) * (y * y + 0) + (x * x + dl)) - (1 + d * (x * x) * (y * y) + x * x)); [ring|]. rewrite <- E, <- H'. ring. }
    apply kmul_eq0 in E1 as [E1|E1]; [contradiction|]. apply (d_minus y). transitivity (1 + d * (y * y) - 1); [ring|rewrite E1; ring].
  - split; [|intros [[_ ?]|(? & _ & _)]; discriminate]. intros E. exfalso.
    assert (E1 : dl * (1 - d * (x * x)) = 0).
    { transitivity ((y * y + dl - (1 + d * (x * x + 0) * (y * y + dl) + (x * x + 0))) - (y * y - (1 + d * (x * x) * (y * y) + x * x))); [ring|].
      rewrite (ek_sub _ _ E), (ek_sub _ _ H'). ring. }
    apply kmul_eq0 in E1 as [E1|E1]; [contradiction|]. apply (d_plus x). transitivity (1 - (1 - d * (x * x))); [ring|rewrite E1; ring].
  - split; [auto|]. intros _. transitivity (y * y); [ring|]. rewrite H' at 1. ring.
Qed.

(** What it takes for a computed double to stand for [P + P]. *)
Lemma cross (a b c e : K) : b <> 0 -> e <> 0 -> a = c / e * b -> a * e = c * b.
Proof. intros N1 N2 ->. field. exact N2. Qed.
Lemma two_nz : (1 + 1 : K) <> 0. Proof. exact (ec_two d EC). Qed.

Lemma e_double_affine_iff x y : on (x, y) -> dr x && dr y = false ->
  (ed_ext (sqe_double_affine K sq d (mkEaff x y)) (ed_add d (x, y) (x, y)) <->
   dr x = false /\ dr y = false /\ dr (x + y) = false).
Proof.
  intros H ND. pose proof (ed_den_plus K d EC x y x y H H) as DP. pose proof (ed_den_minus K d EC x y x y H H) as DM.
  split.
  - cbn [ed_ext ed_add sqe_double_affine eex eey eez eet]. rewrite !SQ.
    set (ex := if dr x then dl else 0). set (ey := if dr y then dl else 0). set (es := if dr (x + y) then dl else 0).
    set (a := x * x + ex). set (b := y * y + ey). set (c := d * a * b). set (e := (x + y) * (x + y) + es - (a + b)).
    intros (NZ & E1 & E2 & _).
    assert (NF : 1 - c <> 0) by (intros E; apply NZ; rewrite E; ring). assert (NG : 1 + c <> 0) by (intros E; apply NZ; rewrite E; ring).
    assert (X1 : e * (1 + d * x * x * y * y) = (x * y + y * x) * (1 + c)).
    { apply (kmul_cancel_l K (1 - c)); [exact NF|]. pose proof (cross _ _ _ _ NZ DP E1) as Q.
      transitivity (e * (1 - c) * (1 + d * x * x * y * y)); [ring|]. rewrite Q. ring. }
    assert (Y1 : (a + b) * (1 - d * x * x * y * y) = (y * y + x * x) * (1 - c)).
    { apply (kmul_cancel_l K (1 + c)); [exact NG|]. pose proof (cross _ _ _ _ NZ DM E2) as Q.
      transitivity ((1 + c) * (a + b) * (1 - d * x * x * y * y)); [ring|]. rewrite Q. ring. }
    clear E1 E2 NZ NF NG. subst e c a b ex ey es.
    destruct (dr x) eqn:DX, (dr y) eqn:DY; [discriminate| | |].
    + exfalso. assert (Q : dl * (1 + d * ((y * y) * (y * y))) = 0).
      { transitivity ((x * x + dl + (y * y + 0)) * (1 - d * x * x * y * y) - (y * y + x * x) * (1 - d * (x * x + dl) * (y * y + 0))); [ring|]. rewrite Y1. ring. }
      apply kmul_eq0 in Q as [Q|Q]; [contradiction|]. apply (d_minus (y * y)). transitivity (1 + d * (y * y * (y * y)) - 1); [ring|rewrite Q; ring].
    + exfalso. assert (Q : dl * (1 + d * ((x * x) * (x * x))) = 0).
      { transitivity ((x * x + 0 + (y * y + dl)) * (1 - d * x * x * y * y) - (y * y + x * x) * (1 - d * (x * x + 0) * (y * y + dl))); [ring|]. rewrite Y1. ring. }
      apply kmul_eq0 in Q as [Q|Q]; [contradiction|]. apply (d_minus (x * x)). transitivity (1 + d * (x * x * (x * x)) - 1); [ring|rewrite Q; ring].
    + split; [reflexivity|]. split; [reflexivity|]. destruct (dr (x + y)) eqn:DS; [exfalso|reflexivity].
      assert (Q : dl * (1 + d * x * x * y * y) = 0).
      { transitivity (((x + y) * (x + y) + dl - (x * x + 0 + (y * y + 0))) * (1 + d * x * x * y * y) - (x * y + y * x) * (1 + d * (x * x + 0) * (y * y + 0))); [ring|]. rewrite X1. ring. }
      apply kmul_eq0 in Q as [Q|Q]; contradiction.
  - intros (DX & DY & DS). rewrite eex_double_affine; [apply (ed_double_aff_ok K d EC (mkEaff x y) H)|].
    cbn. repeat constructor; cbn [eax eay]; rewrite SQ, ?DX, ?DY, ?DS; unfold ksq; ring.
Qed.

Lemma e_double_ext_iff p x y : on (x, y) -> ed_ext p (x, y) -> x <> 0 -> y <> 0 -> x * x + y * y <> 0 ->
  (ed_ext (sqe_double_ext K sq p) (ed_add d (x, y) (x, y)) <-> dr (eex p) = false /\ dr (eey p) = false /\ dr (eez p) = false).
Proof.
  intros H R NX NY NS. pose proof (ed_den_plus K d EC x y x y H H) as DP. pose proof (ed_den_minus K d EC x y x y H H) as DM.
  assert (DP' : 1 + d * x * x * y * y = y * y - x * x) by (cbn in H; rewrite H; ring).
  assert (DM' : 1 - d * x * x * y * y = 1 + 1 - (y * y - x * x)) by (cbn in H; rewrite H; ring).
  split.
  - destruct p as [X Y T Z]. cbn [ed_ext eex eey eez eet] in R. destruct R as (NZ0 & EX & EY & _).
    cbn [ed_ext ed_add sqe_double_ext eex eey eez eet]. rewrite !SQ. rewrite DP', DM' in *.
    set (ex := if dr X then dl else 0). set (ey := if dr Y then dl else 0). set (ez := if dr Z then dl else 0).
    set (g := - (X * X + ex) + (Y * Y + ey)). set (d' := - (X * X + ex) - (Y * Y + ey)). set (f := g - kdbl (Z * Z + ez)).
    intros (NZ & E1 & E2 & _).
    assert (NF : f <> 0) by (intros E; apply NZ; rewrite E; ring). assert (NG : g <> 0) by (intros E; apply NZ; rewrite E; ring).
    assert (X1 : kdbl (X * Y) * (y * y - x * x) = (x * y + y * x) * g).
    { apply (kmul_cancel_l K f); [exact NF|]. pose proof (cross _ _ _ _ NZ DP E1) as Q.
      transitivity (kdbl (X * Y) * f * (y * y - x * x)); [ring|]. rewrite Q. ring. }
    assert (Y1 : d' * (1 + 1 - (y * y - x * x)) = (y * y + x * x) * f).
    { apply (kmul_cancel_l K g); [exact NG|]. pose proof (cross _ _ _ _ NZ DM E2) as Q.
      transitivity (g * d' * (1 + 1 - (y * y - x * x))); [ring|]. rewrite Q. ring. }
    clear E1 E2 NZ. 
    assert (G : ey = ex).
    { assert (Q : (1 + 1) * (x * y) * (ey - ex) = 0).
      { transitivity ((x * y + y * x) * g - kdbl (X * Y) * (y * y - x * x)); [unfold g, kdbl; rewrite EX, EY; ring|]. rewrite X1. ring. }
      apply kmul_eq0 in Q as [Q|Q]; [|apply ek_unsub, Q]. exfalso. apply kmul_eq0 in Q as [Q|Q]; [exact (two_nz Q)|]. apply kmul_eq0 in Q as [Q|Q]; contradiction. }
    assert (F : (1 + 1) * (ex * (1 + 1 - (y * y - x * x)) - ez * (y * y + x * x)) = 0).
    { transitivity ((y * y + x * x) * f - d' * (1 + 1 - (y * y - x * x))); [unfold f, d', g, kdbl; rewrite G, EX, EY; ring|]. rewrite Y1. ring. }
    apply kmul_eq0 in F as [F|F]; [destruct (two_nz F)|].
    unfold ex, ey, ez in *. destruct (dr X) eqn:DX, (dr Y) eqn:DY.
    + exfalso. destruct (dr Z).
      * assert (Q : (1 + 1) * dl * ((1 - y) * (1 + y)) = 0) by (rewrite <- F; ring).
        assert (Q1 : y * y = 1).
        { apply kmul_eq0 in Q as [Q|Q]; [exfalso; apply kmul_eq0 in Q as [Q|Q]; [exact (two_nz Q)|contradiction]|].
          transitivity (1 - (1 - y) * (1 + y)); [ring|rewrite Q; ring]. }
        cbn in H. assert (Q2 : (x * x) * (1 + d * (1 * 1)) = 0).
        { transitivity ((1 + d * (x * x) * (y * y)) - (y * y - x * x)); [rewrite Q1; ring|rewrite H; ring]. }
        apply kmul_eq0 in Q2 as [Q2|Q2]; [apply kmul_eq0 in Q2 as [Q2|Q2]; contradiction|].
        apply (d_minus 1). transitivity (1 + d * (1 * 1) - 1); [ring|rewrite Q2; ring].
      * assert (Q : dl * (1 + 1 - (y * y - x * x)) = 0) by (rewrite <- F; ring).
        apply kmul_eq0 in Q as [Q|Q]; contradiction.
    + exfalso. apply DL. symmetry. exact G.
    + exfalso. apply DL. exact G.
    + split; [reflexivity|]. split; [reflexivity|]. destruct (dr Z); [exfalso|reflexivity].
      assert (Q : dl * (x * x + y * y) = 0). { transitivity (0 - (0 * (1 + 1 - (y * y - x * x)) - dl * (y * y + x * x))); [ring|]. rewrite F. ring. }
      apply kmul_eq0 in Q as [Q|Q]; contradiction.
  - intros (DX & DY & DZ). rewrite eex_double_ext; [apply (ed_double_ext_ok K d EC p _ H R)|].
    cbn. repeat constructor; rewrite SQ, ?DX, ?DY, ?DZ; unfold ksq; ring.
Qed.
End Exact.
