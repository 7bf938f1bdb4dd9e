(** The blocks of AsmModel.v read no register and no flag they have not written. *)
From Coq Require Import ZArith List Bool.
From Verif Require Import LimbModel AsmModel.
Import ListNotations.
Local Open Scope Z_scope.

Definition reg_eqb (a b : reg) : bool :=
  match a, b with
  | RAX, RAX | RCX, RCX | RDX, RDX | R8, R8 | R9, R9 | R10, R10 | R11, R11
  | R12, R12 | R13, R13 | R14, R14 | R15, R15 => true
  | _, _ => false
  end.

Lemma reg_eqb_eq a b : reg_eqb a b = true <-> a = b.
Proof. destruct a, b; cbn; split; congruence. Qed.

(** What has been written: registers, CF, ZF. *)
Record known := Known { k_regs : reg -> bool; k_cf : bool; k_zf : bool }.

Definition agree (k : known) (s t : cpu) : Prop :=
  (forall r, k_regs k r = true -> rd s r = rd t r) /\
  (k_cf k = true -> cf s = cf t) /\ (k_zf k = true -> zf s = zf t).

Definition set_reg (f : reg -> bool) (d : reg) : reg -> bool := fun r => reg_eqb r d || f r.
Definition knows (k : known) (o : opnd) : bool := match o with Reg r => k_regs k r | _ => true end.

Definition chk (i : instr) (k : known) : option known :=
  match i with
  | MOV d o => if knows k o then Some (Known (set_reg (k_regs k) d) (k_cf k) (k_zf k)) else None
  | ADD d o | SUB d o | AND_ d o | OR_ d o =>
      if k_regs k d && knows k o then Some (Known (k_regs k) true true) else None
  | CMP d o => if k_regs k d && knows k o then Some (Known (k_regs k) true true) else None
  | XOR_ d o =>
      if match o with Reg r => reg_eqb r d | _ => false end
      then Some (Known (set_reg (k_regs k) d) true true)
      else if k_regs k d && knows k o then Some (Known (k_regs k) true true) else None
  | ADC d o | SBB d o =>
      if k_regs k d && knows k o && k_cf k then Some (Known (k_regs k) true true) else None
  | ADCX d o => if k_regs k d && knows k o && k_cf k then Some (Known (k_regs k) true (k_zf k)) else None
  | CMOVC d o => if k_regs k d && knows k o && k_cf k then Some k else None
  | CMOVE d o => if k_regs k d && knows k o && k_zf k then Some k else None
  | MULX h l o => if k_regs k RDX && knows k o
      then Some (Known (set_reg (set_reg (k_regs k) l) h) (k_cf k) (k_zf k)) else None
  end.

Fixpoint chks (code : list instr) (k : known) : option known :=
  match code with [] => Some k | i :: rest => match chk i k with Some k' => chks rest k' | None => None end end.

Lemma rd_wr s d v r : rd (wr s d v) r = if reg_eqb r d then v else rd s r.
Proof. destruct s, d, r; reflexivity. Qed.
Lemma cf_wr s d v : cf (wr s d v) = cf s. Proof. destruct s, d; reflexivity. Qed.
Lemma zf_wr s d v : zf (wr s d v) = zf s. Proof. destruct s, d; reflexivity. Qed.
Lemma rd_flags s c z r : rd (flags s c z) r = rd s r. Proof. destruct s, r; reflexivity. Qed.
Lemma cf_flags s c z : cf (flags s c z) = c. Proof. destruct s; reflexivity. Qed.
Lemma zf_flags s c z : zf (flags s c z) = z. Proof. destruct s; reflexivity. Qed.

Lemma src_agree m k s t o : agree k s t -> knows k o = true -> src m s o = src m t o.
Proof. intros (R & _) K. destruct o as [r|p i|z]; cbn in *; auto. Qed.

Ltac ag := repeat split; intros;
  repeat (rewrite ?rd_flags, ?cf_flags, ?zf_flags, ?rd_wr, ?cf_wr, ?zf_wr in * );
  cbn [k_regs k_cf k_zf] in *; unfold set_reg in *;
  repeat match goal with
  | H : reg_eqb ?r ?d || _ = true |- context [reg_eqb ?r ?d] => destruct (reg_eqb r d); cbn in H
  | |- context [reg_eqb ?r ?d] => destruct (reg_eqb r d)
  end; try congruence; auto.

Lemma chk_step m i k k' s t : agree k s t -> chk i k = Some k' -> agree k' (step m i s) (step m i t).
Proof.
  intros A C. pose proof A as (R & F & Z). destruct i as [d o|d o|d o|d o|d o|d o|d o|d o|d o|d o|d o|d o|h l o]; cbn [chk step] in *.
  - destruct (knows k o) eqn:K; [|discriminate]. injection C as <-. rewrite (src_agree m k s t o A K). ag.
  - destruct (k_regs k d && knows k o) eqn:K; [|discriminate]. apply andb_prop in K as [K1 K2]. injection C as <-.
    rewrite (src_agree m k s t o A K2), (R d K1). ag.
  - destruct (k_regs k d && knows k o && k_cf k) eqn:K; [|discriminate]. apply andb_prop in K as [K K3].
    apply andb_prop in K as [K1 K2]. injection C as <-. rewrite (src_agree m k s t o A K2), (R d K1), (F K3). ag.
  - destruct (k_regs k d && knows k o && k_cf k) eqn:K; [|discriminate]. apply andb_prop in K as [K K3].
    apply andb_prop in K as [K1 K2]. injection C as <-. rewrite (src_agree m k s t o A K2), (R d K1), (F K3). ag.
  - destruct (k_regs k d && knows k o) eqn:K; [|discriminate]. apply andb_prop in K as [K1 K2]. injection C as <-.
    rewrite (src_agree m k s t o A K2), (R d K1). ag.
  - destruct (k_regs k d && knows k o && k_cf k) eqn:K; [|discriminate]. apply andb_prop in K as [K K3].
    apply andb_prop in K as [K1 K2]. injection C as <-. rewrite (src_agree m k s t o A K2), (R d K1), (F K3). ag.
  - destruct (k_regs k d && knows k o) eqn:K; [|discriminate]. apply andb_prop in K as [K1 K2]. injection C as <-.
    rewrite (src_agree m k s t o A K2), (R d K1). ag.
  - destruct (k_regs k d && knows k o) eqn:K; [|discriminate]. apply andb_prop in K as [K1 K2]. injection C as <-.
    rewrite (src_agree m k s t o A K2), (R d K1). ag.
  - destruct (match o with Reg r => reg_eqb r d | _ => false end) eqn:X.
    + destruct o as [r| |]; try discriminate. apply reg_eqb_eq in X as ->. injection C as <-.
      cbn [src]. rewrite !Z.lxor_nilpotent. ag.
    + destruct (k_regs k d && knows k o) eqn:K; [|discriminate]. apply andb_prop in K as [K1 K2]. injection C as <-.
      rewrite (src_agree m k s t o A K2), (R d K1). ag.
  - destruct (k_regs k d && knows k o) eqn:K; [|discriminate]. apply andb_prop in K as [K1 K2]. injection C as <-.
    rewrite (src_agree m k s t o A K2), (R d K1). ag.
  - destruct (k_regs k d && knows k o && k_cf k) eqn:K; [|discriminate]. apply andb_prop in K as [K K3].
    apply andb_prop in K as [K1 K2]. injection C as <-. rewrite (src_agree m k s t o A K2), (R d K1), (F K3). ag.
  - destruct (k_regs k d && knows k o && k_zf k) eqn:K; [|discriminate]. apply andb_prop in K as [K K3].
    apply andb_prop in K as [K1 K2]. injection C as <-. rewrite (src_agree m k s t o A K2), (R d K1), (Z K3). ag.
  - destruct (k_regs k RDX && knows k o) eqn:K; [|discriminate]. apply andb_prop in K as [K1 K2]. injection C as <-.
    rewrite (src_agree m k s t o A K2). change (rdx s) with (rd s RDX). change (rdx t) with (rd t RDX).
    rewrite (R RDX K1). ag.
Qed.

Lemma chks_exec m code k k' s t : agree k s t -> chks code k = Some k' ->
  agree k' (exec m code s) (exec m code t).
Proof.
  revert k s t. induction code as [|i rest IH]; intros k s t A C; cbn [chks exec] in *.
  - injection C as <-. exact A.
  - destruct (chk i k) as [k1|] eqn:K; [|discriminate]. apply (IH k1); [|exact C].
    apply (chk_step m i k k1 s t A K).
Qed.

Definition nothing : known := Known (fun _ => false) false false.
Lemma agree_nothing s t : agree nothing s t. Proof. repeat split; cbn; discriminate. Qed.

(** A block that passes the check leaves the same values in the registers it has written,
    whatever the state it starts from. *)
Definition writes (code : list instr) (rs : list reg) : bool :=
  match chks code nothing with Some k => forallb (k_regs k) rs | None => false end.

Lemma writes_pure m code rs s t : writes code rs = true ->
  forall r, In r rs -> rd (exec m code s) r = rd (exec m code t) r.
Proof.
  unfold writes. destruct (chks code nothing) as [k|] eqn:C; [|discriminate]. intros F r Hr.
  destruct (chks_exec m code nothing k s t (agree_nothing s t) C) as (R & _).
  apply R. rewrite forallb_forall in F. apply F, Hr.
Qed.

Definition outs4 : list reg := [R12; R13; R14; R15].
Definition outs4' : list reg := [R8; R9; R10; R11].

Lemma pure_hi m code s t : writes code outs4 = true ->
  let x := exec m code s in let y := exec m code t in
  L4 (r12 x) (r13 x) (r14 x) (r15 x) = L4 (r12 y) (r13 y) (r14 y) (r15 y).
Proof.
  intros W x y. pose proof (writes_pure m code outs4 s t W) as P. fold x y in P.
  pose proof (P R12 ltac:(cbn; auto)). pose proof (P R13 ltac:(cbn; auto)).
  pose proof (P R14 ltac:(cbn; auto)). pose proof (P R15 ltac:(cbn; auto 10)). cbn [rd] in *. congruence.
Qed.

Lemma pure_lo m code s t : writes code outs4' = true ->
  let x := exec m code s in let y := exec m code t in
  L4 (r8 x) (r9 x) (r10 x) (r11 x) = L4 (r8 y) (r9 y) (r10 y) (r11 y).
Proof.
  intros W x y. pose proof (writes_pure m code outs4' s t W) as P. fold x y in P.
  pose proof (P R8 ltac:(cbn; auto)). pose proof (P R9 ltac:(cbn; auto)).
  pose proof (P R10 ltac:(cbn; auto)). pose proof (P R11 ltac:(cbn; auto 10)). cbn [rd] in *. congruence.
Qed.

Lemma asm_add_pure s t a b p : asm_add s a b p = asm_add t a b p.
Proof. exact (pure_hi _ add_code s t eq_refl). Qed.
Lemma asm_sub_pure s t a b p : asm_sub s a b p = asm_sub t a b p.
Proof. exact (pure_hi _ sub_code s t eq_refl). Qed.
Lemma asm_double_pure s t a p : asm_double s a p = asm_double t a p.
Proof. exact (pure_hi _ double_code s t eq_refl). Qed.
Lemma asm_mul_pure s t a b p : asm_mul s a b p = asm_mul t a b p.
Proof. exact (pure_lo _ mul_code s t eq_refl). Qed.
Lemma asm_square_pure s t a p : asm_square s a p = asm_square t a p.
Proof. exact (pure_lo _ square_code s t eq_refl). Qed.
Lemma asm_neg_pure s t a p : asm_neg s a p = asm_neg t a p.
Proof. exact (pure_lo _ neg_code s t eq_refl). Qed.
