(** Deciding equations in commutative groups. *)
From Coq Require Import ZArith List Bool Lia.
From Verif Require Import GroupLib.
Import ListNotations.
Local Open Scope Z_scope.

Inductive gexp := GV (i : nat) | G0 | GA (x y : gexp) | GN (x : gexp).
Fixpoint gden {A : AbGrp} (env : list A) (e : gexp) : A :=
  match e with
  | GV i => nth i env a0
  | G0 => a0
  | GA x y => aadd (gden env x) (gden env y)
  | GN x => aneg (gden env x)
  end.
Fixpoint gaddl (l m : list Z) : list Z :=
  match l, m with
  | [], _ => m
  | _, [] => l
  | x :: l, y :: m => (x + y) :: gaddl l m
  end.
Fixpoint gunit (i : nat) : list Z := match i with O => [1] | S i => 0 :: gunit i end.
Fixpoint gnorm (e : gexp) : list Z :=
  match e with
  | GV i => gunit i
  | G0 => []
  | GA x y => gaddl (gnorm x) (gnorm y)
  | GN x => map Z.opp (gnorm x)
  end.
Fixpoint lden {A : AbGrp} (env : list A) (l : list Z) : A :=
  match l with [] => a0 | k :: l => aadd (zmul k (hd a0 env)) (lden (tl env) l) end.
Lemma lden_add {A : AbGrp} l : forall m (env : list A), lden env (gaddl l m) = aadd (lden env l) (lden env m).
Proof.
  induction l as [|x l IH]; intros m env; [cbn; rewrite aid; reflexivity|].
  destruct m as [|y m]; [cbn; rewrite aid_r; reflexivity|]. cbn. rewrite IH, zmul_add. apply aswap.
Qed.
Lemma lden_opp {A : AbGrp} l : forall (env : list A), lden env (map Z.opp l) = aneg (lden env l).
Proof. induction l as [|x l IH]; intros env; cbn; [rewrite aneg_0; reflexivity|]. rewrite IH, zmul_opp, aneg_add. reflexivity. Qed.
Lemma lden_unit {A : AbGrp} i : forall (env : list A), lden env (gunit i) = nth i env a0.
Proof.
  induction i as [|i IH]; intros env; cbn [gunit lden].
  - rewrite zmul_1, aid_r. destruct env; reflexivity.
  - rewrite zmul_0, aid, IH. destruct env; [destruct i; reflexivity|reflexivity].
Qed.
Lemma gnorm_ok {A : AbGrp} (env : list A) e : gden env e = lden env (gnorm e).
Proof.
  induction e as [i| |x IHx y IHy|x IH]; cbn; [symmetry; apply lden_unit|reflexivity|rewrite IHx, IHy; symmetry; apply lden_add|rewrite IH; symmetry; apply lden_opp].
Qed.
Definition gzero (l : list Z) : bool := forallb (Z.eqb 0) l.
Lemma gzero_ok {A : AbGrp} l : forall env : list A, gzero l = true -> lden env l = a0.
Proof.
  induction l as [|x l IH]; intros env H; [reflexivity|]. unfold gzero in H. cbn [forallb] in H. apply andb_true_iff in H as [E H]. apply Z.eqb_eq in E as <-.
  cbn [lden]. rewrite IH by exact H. rewrite zmul_0. apply aid.
Qed.
Lemma gdecide {A : AbGrp} (env : list A) e f : gzero (gnorm (GA e (GN f))) = true -> gden env e = gden env f.
Proof.
  intros H. apply (gzero_ok _ env) in H. rewrite <- gnorm_ok in H. cbn [gden] in H.
  apply (acancel A (aneg (gden env f))). rewrite ainv_l, acomm. exact H.
Qed.
Ltac gmem x l := match l with
  | @nil _ => constr:(false)
  | @cons _ x _ => constr:(true)
  | @cons _ _ ?l => gmem x l
  end.
Ltac gpos x l := match l with
  | @cons _ x _ => constr:(O)
  | @cons _ _ ?l => let n := gpos x l in constr:(S n)
  end.
Ltac gatoms e l := match e with
  | @aadd _ ?x ?y => let l := gatoms x l in gatoms y l
  | @aneg _ ?x => gatoms x l
  | @a0 _ => l
  | ?x => match gmem x l with true => l | false => constr:(@cons _ x l) end
  end.
Ltac greify e l := match e with
  | @aadd _ ?x ?y => let u := greify x l in let v := greify y l in constr:(GA u v)
  | @aneg _ ?x => let u := greify x l in constr:(GN u)
  | @a0 _ => constr:(G0)
  | ?x => let n := gpos x l in constr:(GV n)
  end.
Ltac ab := match goal with |- @eq ?C ?x ?y =>
  let A := match C with acar ?A => A end in
  let l := gatoms x (@nil C) in let l := gatoms y l in let u := greify x l in let v := greify y l in
  change (@gden A l u = @gden A l v); apply (@gdecide A); reflexivity end.
Goal forall (A : AbGrp) (x y z : A), aadd x (aadd (aneg y) z) = aadd (aadd z x) (aneg y). intros. ab. Qed.
