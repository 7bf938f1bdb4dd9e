(** Model of zkstd/src/arithmetic/limbs/bits_256/assembly.rs: the x86-64 inline-assembly
    backend of the 256-bit limb arithmetic.

    The file is selected by the cargo feature [asm] (bits_256.rs:1-13), which
    zkstd/Cargo.toml does not declare, so no build of the pinned commit uses it; it is
    modelled as the code it is, an alternative to normal.rs (LimbModel.v).

    Each [asm!] block is the list of its instructions, in the order of the source, under
    the semantics below.  Simplifications: of the flags only CF and ZF are kept (the blocks
    read no other); the three pointer operands are addressed by name, because
    [in(reg)] operands never share a register with the [out("...")] registers of the same
    block; memory operands are the eight-byte words [ptr + 0], [+ 8], [+ 16], [+ 24] of the
    input arrays, numbered 0 to 3. *)
From Coq Require Import ZArith List Bool.
From Verif Require Import LimbModel.
Import ListNotations.
Local Open Scope Z_scope.

(** The registers the blocks name. *)
Inductive reg := RAX | RCX | RDX | R8 | R9 | R10 | R11 | R12 | R13 | R14 | R15.

(** [{a_ptr}], [{b_ptr}], [{m_ptr}]. *)
Inductive ptr := PA | PB | PM.

(** Register, memory word or immediate. *)
Inductive opnd := Reg (r : reg) | Mem (p : ptr) (i : nat) | Imm (z : Z).

(** The instructions that occur in assembly.rs, destination first. *)
Inductive instr :=
| MOV (d : reg) (s : opnd)
| ADD (d : reg) (s : opnd)
| ADC (d : reg) (s : opnd)
| ADCX (d : reg) (s : opnd)
| SUB (d : reg) (s : opnd)
| SBB (d : reg) (s : opnd)
| AND_ (d : reg) (s : opnd)
| OR_ (d : reg) (s : opnd)
| XOR_ (d : reg) (s : opnd)
| CMP (d : reg) (s : opnd)
| CMOVC (d : reg) (s : opnd)
| CMOVE (d : reg) (s : opnd)
| MULX (h l : reg) (s : opnd).

(** Register file, carry flag, zero flag. *)
Record cpu := Cpu { rax : Z; rcx : Z; rdx : Z; r8 : Z; r9 : Z; r10 : Z; r11 : Z;
  r12 : Z; r13 : Z; r14 : Z; r15 : Z; cf : bool; zf : bool }.

(** Read a register. *)
Definition rd (s : cpu) (r : reg) : Z :=
  match r with
  | RAX => rax s | RCX => rcx s | RDX => rdx s | R8 => r8 s | R9 => r9 s | R10 => r10 s
  | R11 => r11 s | R12 => r12 s | R13 => r13 s | R14 => r14 s | R15 => r15 s
  end.

(** Write a register; the flags are unchanged. *)
Definition wr (s : cpu) (r : reg) (v : Z) : cpu :=
  let 'Cpu ax cx dx a8 a9 a10 a11 a12 a13 a14 a15 c z := s in
  match r with
  | RAX => Cpu v cx dx a8 a9 a10 a11 a12 a13 a14 a15 c z
  | RCX => Cpu ax v dx a8 a9 a10 a11 a12 a13 a14 a15 c z
  | RDX => Cpu ax cx v a8 a9 a10 a11 a12 a13 a14 a15 c z
  | R8 => Cpu ax cx dx v a9 a10 a11 a12 a13 a14 a15 c z
  | R9 => Cpu ax cx dx a8 v a10 a11 a12 a13 a14 a15 c z
  | R10 => Cpu ax cx dx a8 a9 v a11 a12 a13 a14 a15 c z
  | R11 => Cpu ax cx dx a8 a9 a10 v a12 a13 a14 a15 c z
  | R12 => Cpu ax cx dx a8 a9 a10 a11 v a13 a14 a15 c z
  | R13 => Cpu ax cx dx a8 a9 a10 a11 a12 v a14 a15 c z
  | R14 => Cpu ax cx dx a8 a9 a10 a11 a12 a13 v a15 c z
  | R15 => Cpu ax cx dx a8 a9 a10 a11 a12 a13 a14 v c z
  end.

(** Write both flags. *)
Definition flags (s : cpu) (c z : bool) : cpu :=
  let 'Cpu ax cx dx a8 a9 a10 a11 a12 a13 a14 a15 _ _ := s in
  Cpu ax cx dx a8 a9 a10 a11 a12 a13 a14 a15 c z.

(** The input arrays: [a], [b] and the modulus [p] ([m_ptr]). *)
Record mem := MemOf { m_a : l4; m_b : l4; m_m : l4 }.

(** Word [i] of an array of four. *)
Definition word_at (a : l4) (i : nat) : Z :=
  match i with 0%nat => w0 a | 1%nat => w1 a | 2%nat => w2 a | _ => w3 a end.

Definition load (m : mem) (p : ptr) (i : nat) : Z :=
  match p with PA => word_at (m_a m) i | PB => word_at (m_b m) i | PM => word_at (m_m m) i end.

(** Value of a source operand. *)
Definition src (m : mem) (s : cpu) (o : opnd) : Z :=
  match o with Reg r => rd s r | Mem p i => load m p i | Imm z => z end.

(** 64-bit sum and difference with carry/borrow in, and the carry/borrow out. *)
Definition bit (c : bool) : Z := if c then 1 else 0.
Definition sum64 (x y : Z) (c : bool) : Z := w64 (x + y + bit c).
Definition carry64 (x y : Z) (c : bool) : bool := B <=? x + y + bit c.
Definition diff64 (x y : Z) (c : bool) : Z := w64 (x - y - bit c).
Definition borrow64 (x y : Z) (c : bool) : bool := x - y - bit c <? 0.

(** One instruction (Intel SDM vol. 2).  [add]/[adc]/[sub]/[sbb]/[cmp] set CF and ZF;
    [and]/[or]/[xor] clear CF and set ZF; [adcx] sets CF only; [mov], [cmovcc] and [mulx]
    set no flag.  [mulx h, l, s] multiplies [rdx] by [s], writes the low half to [l] and
    then the high half to [h]. *)
Definition step (m : mem) (i : instr) (s : cpu) : cpu :=
  match i with
  | MOV d o => wr s d (src m s o)
  | ADD d o => let v := sum64 (rd s d) (src m s o) false in
      flags (wr s d v) (carry64 (rd s d) (src m s o) false) (v =? 0)
  | ADC d o => let v := sum64 (rd s d) (src m s o) (cf s) in
      flags (wr s d v) (carry64 (rd s d) (src m s o) (cf s)) (v =? 0)
  | ADCX d o => flags (wr s d (sum64 (rd s d) (src m s o) (cf s)))
      (carry64 (rd s d) (src m s o) (cf s)) (zf s)
  | SUB d o => let v := diff64 (rd s d) (src m s o) false in
      flags (wr s d v) (borrow64 (rd s d) (src m s o) false) (v =? 0)
  | SBB d o => let v := diff64 (rd s d) (src m s o) (cf s) in
      flags (wr s d v) (borrow64 (rd s d) (src m s o) (cf s)) (v =? 0)
  | AND_ d o => let v := Z.land (rd s d) (src m s o) in flags (wr s d v) false (v =? 0)
  | OR_ d o => let v := Z.lor (rd s d) (src m s o) in flags (wr s d v) false (v =? 0)
  | XOR_ d o => let v := Z.lxor (rd s d) (src m s o) in flags (wr s d v) false (v =? 0)
  | CMP d o => flags s (borrow64 (rd s d) (src m s o) false) (diff64 (rd s d) (src m s o) false =? 0)
  | CMOVC d o => wr s d (if cf s then src m s o else rd s d)
  | CMOVE d o => wr s d (if zf s then src m s o else rd s d)
  | MULX h l o => let v := rdx s * src m s o in wr (wr s l (lo v)) h (hi v)
  end.

(** A block: its instructions in order. *)
Fixpoint exec (m : mem) (code : list instr) (s : cpu) : cpu :=
  match code with [] => s | i :: rest => exec m rest (step m i s) end.

(** assembly.rs:11-38, the block of [add]. *)
Definition add_code : list instr :=
  [ MOV R8 (Mem PA 0);
    MOV R9 (Mem PA 1);
    MOV R10 (Mem PA 2);
    MOV R11 (Mem PA 3);
    ADD R8 (Mem PB 0);
    ADC R9 (Mem PB 1);
    ADC R10 (Mem PB 2);
    ADC R11 (Mem PB 3);
    MOV R12 (Reg R8);
    MOV R13 (Reg R9);
    MOV R14 (Reg R10);
    MOV R15 (Reg R11);
    SUB R12 (Mem PM 0);
    SBB R13 (Mem PM 1);
    SBB R14 (Mem PM 2);
    SBB R15 (Mem PM 3);
    CMOVC R12 (Reg R8);
    CMOVC R13 (Reg R9);
    CMOVC R14 (Reg R10);
    CMOVC R15 (Reg R11) ].

(** assembly.rs:65-92, the block of [sub]. *)
Definition sub_code : list instr :=
  [ XOR_ R12 (Reg R12);
    XOR_ R13 (Reg R13);
    XOR_ R14 (Reg R14);
    XOR_ R15 (Reg R15);
    MOV R8 (Mem PA 0);
    MOV R9 (Mem PA 1);
    MOV R10 (Mem PA 2);
    MOV R11 (Mem PA 3);
    SUB R8 (Mem PB 0);
    SBB R9 (Mem PB 1);
    SBB R10 (Mem PB 2);
    SBB R11 (Mem PB 3);
    CMOVC R12 (Mem PM 0);
    CMOVC R13 (Mem PM 1);
    CMOVC R14 (Mem PM 2);
    CMOVC R15 (Mem PM 3);
    ADD R12 (Reg R8);
    ADC R13 (Reg R9);
    ADC R14 (Reg R10);
    ADC R15 (Reg R11) ].

(** assembly.rs:119-146, the block of [double]. *)
Definition double_code : list instr :=
  [ MOV R8 (Mem PA 0);
    MOV R9 (Mem PA 1);
    MOV R10 (Mem PA 2);
    MOV R11 (Mem PA 3);
    ADD R8 (Reg R8);
    ADC R9 (Reg R9);
    ADC R10 (Reg R10);
    ADC R11 (Reg R11);
    MOV R12 (Reg R8);
    MOV R13 (Reg R9);
    MOV R14 (Reg R10);
    MOV R15 (Reg R11);
    SUB R12 (Mem PM 0);
    SBB R13 (Mem PM 1);
    SBB R14 (Mem PM 2);
    SBB R15 (Mem PM 3);
    CMOVC R12 (Reg R8);
    CMOVC R13 (Reg R9);
    CMOVC R14 (Reg R10);
    CMOVC R15 (Reg R11) ].

(** assembly.rs:196-217, [mul]: load [b0..b2], then [a0 * b]. *)
Definition mul_row0 : list instr :=
  [ MOV R13 (Mem PB 0);
    MOV R14 (Mem PB 1);
    MOV R15 (Mem PB 2);
    MOV RDX (Mem PA 0);
    MULX R9 R8 (Reg R13);
    MULX R10 RAX (Reg R14);
    ADD R9 (Reg RAX);
    MULX R11 RAX (Reg R15);
    ADCX R10 (Reg RAX);
    MULX R12 RAX (Mem PB 3);
    ADCX R11 (Reg RAX);
    ADC R12 (Imm 0) ].

(** assembly.rs:220-246, [mul]: add [a1 * b]. *)
Definition mul_row1 : list instr :=
  [ MOV RDX (Mem PA 1);
    MULX RCX RAX (Reg R13);
    ADD R9 (Reg RAX);
    ADCX R10 (Reg RCX);
    ADC R11 (Imm 0);
    MULX RCX RAX (Reg R14);
    ADD R10 (Reg RAX);
    ADCX R11 (Reg RCX);
    ADC R12 (Imm 0);
    XOR_ R13 (Reg R13);
    MULX RCX RAX (Reg R15);
    ADD R11 (Reg RAX);
    ADCX R12 (Reg RCX);
    ADC R13 (Imm 0);
    XOR_ R14 (Reg R14);
    MULX RCX RAX (Mem PB 3);
    ADD R12 (Reg RAX);
    ADCX R13 (Reg RCX);
    ADC R14 (Imm 0) ].

(** assembly.rs:249-274, [mul]: add [a2 * b]. *)
Definition mul_row2 : list instr :=
  [ MOV RDX (Mem PA 2);
    MULX RCX RAX (Mem PB 0);
    ADD R10 (Reg RAX);
    ADCX R11 (Reg RCX);
    ADC R12 (Imm 0);
    MULX RCX RAX (Mem PB 1);
    ADD R11 (Reg RAX);
    ADCX R12 (Reg RCX);
    ADC R13 (Imm 0);
    MULX RCX RAX (Reg R15);
    ADD R12 (Reg RAX);
    ADCX R13 (Reg RCX);
    ADC R14 (Imm 0);
    XOR_ R15 (Reg R15);
    MULX RCX RAX (Mem PB 3);
    ADD R13 (Reg RAX);
    ADCX R14 (Reg RCX);
    ADC R15 (Imm 0) ].

(** assembly.rs:277-300, [mul]: add [a3 * b]. *)
Definition mul_row3 : list instr :=
  [ MOV RDX (Mem PA 3);
    MULX RCX RAX (Mem PB 0);
    ADD R11 (Reg RAX);
    ADCX R12 (Reg RCX);
    ADC R13 (Imm 0);
    MULX RCX RAX (Mem PB 1);
    ADD R12 (Reg RAX);
    ADCX R13 (Reg RCX);
    ADC R14 (Imm 0);
    MULX RCX RAX (Mem PB 2);
    ADD R13 (Reg RAX);
    ADCX R14 (Reg RCX);
    ADC R15 (Imm 0);
    MULX RCX RAX (Mem PB 3);
    ADD R14 (Reg RAX);
    ADC R15 (Reg RCX) ].

(** assembly.rs:306-331, Montgomery reduction, step 0 (the same instructions occur in [square]). *)
Definition redc_row0 : list instr :=
  [ MOV RDX (Imm 0x1ba3a358ef788ef9);
    MULX RAX RDX (Reg R8);
    MULX RCX RAX (Mem PM 0);
    ADD R8 (Reg RAX);
    ADCX R9 (Reg RCX);
    ADC R10 (Imm 0);
    MULX RCX RAX (Mem PM 1);
    ADD R9 (Reg RAX);
    ADCX R10 (Reg RCX);
    ADC R11 (Imm 0);
    MULX RCX RAX (Mem PM 2);
    ADD R10 (Reg RAX);
    ADCX R11 (Reg RCX);
    ADC R12 (Imm 0);
    MULX RCX RAX (Mem PM 3);
    ADD R11 (Reg RAX);
    ADCX R12 (Reg RCX);
    ADC R13 (Imm 0) ].

(** assembly.rs:334-359, Montgomery reduction, step 1 (the same instructions occur in [square]). *)
Definition redc_row1 : list instr :=
  [ MOV RDX (Imm 0x1ba3a358ef788ef9);
    MULX RAX RDX (Reg R9);
    MULX RAX RCX (Mem PM 0);
    ADD R9 (Reg RCX);
    ADCX R10 (Reg RAX);
    ADC R11 (Imm 0);
    MULX RAX RCX (Mem PM 1);
    ADD R10 (Reg RCX);
    ADCX R11 (Reg RAX);
    ADC R12 (Imm 0);
    MULX RAX RCX (Mem PM 2);
    ADD R11 (Reg RCX);
    ADCX R12 (Reg RAX);
    ADC R13 (Imm 0);
    MULX RAX RCX (Mem PM 3);
    ADD R12 (Reg RCX);
    ADCX R13 (Reg RAX);
    ADC R14 (Imm 0) ].

(** assembly.rs:362-387, Montgomery reduction, step 2 (the same instructions occur in [square]). *)
Definition redc_row2 : list instr :=
  [ MOV RDX (Imm 0x1ba3a358ef788ef9);
    MULX RAX RDX (Reg R10);
    MULX RAX RCX (Mem PM 0);
    ADD R10 (Reg RCX);
    ADCX R11 (Reg RAX);
    ADC R12 (Imm 0);
    MULX RAX RCX (Mem PM 1);
    ADD R11 (Reg RCX);
    ADCX R12 (Reg RAX);
    ADC R13 (Imm 0);
    MULX RAX RCX (Mem PM 2);
    ADD R12 (Reg RCX);
    ADCX R13 (Reg RAX);
    ADC R14 (Imm 0);
    MULX RAX RCX (Mem PM 3);
    ADD R13 (Reg RCX);
    ADCX R14 (Reg RAX);
    ADC R15 (Imm 0) ].

(** assembly.rs:390-414, Montgomery reduction, step 3 (the same instructions occur in [square]). *)
Definition redc_row3 : list instr :=
  [ MOV RDX (Imm 0x1ba3a358ef788ef9);
    MULX RAX RDX (Reg R11);
    MULX RAX RCX (Mem PM 0);
    ADD R11 (Reg RCX);
    ADCX R12 (Reg RAX);
    ADC R13 (Imm 0);
    MULX RAX RCX (Mem PM 1);
    ADD R12 (Reg RCX);
    ADCX R13 (Reg RAX);
    ADC R14 (Imm 0);
    MULX RAX RCX (Mem PM 2);
    ADD R13 (Reg RCX);
    ADCX R14 (Reg RAX);
    ADC R15 (Imm 0);
    MULX RAX RCX (Mem PM 3);
    ADD R14 (Reg RCX);
    ADCX R15 (Reg RAX) ].

(** assembly.rs:417-430, conditional subtraction of the modulus (the same in [square]). *)
Definition final_sub : list instr :=
  [ MOV R8 (Reg R12);
    MOV R9 (Reg R13);
    MOV R10 (Reg R14);
    MOV R11 (Reg R15);
    SUB R8 (Mem PM 0);
    SBB R9 (Mem PM 1);
    SBB R10 (Mem PM 2);
    SBB R11 (Mem PM 3);
    CMOVC R8 (Reg R12);
    CMOVC R9 (Reg R13);
    CMOVC R10 (Reg R14);
    CMOVC R11 (Reg R15) ].

(** assembly.rs:432-445, a second one in [mul], into registers that are not outputs. *)
Definition second_sub : list instr :=
  [ MOV R12 (Reg R8);
    MOV R13 (Reg R9);
    MOV R14 (Reg R10);
    MOV R15 (Reg R11);
    SUB R12 (Mem PM 0);
    SBB R13 (Mem PM 1);
    SBB R14 (Mem PM 2);
    SBB R15 (Mem PM 3);
    CMOVC R12 (Reg R8);
    CMOVC R13 (Reg R9);
    CMOVC R14 (Reg R10);
    CMOVC R15 (Reg R11) ].

(** assembly.rs:474-498, [square]: load [a], then [a0 * a]. *)
Definition square_row0 : list instr :=
  [ MOV R12 (Mem PA 0);
    MOV R13 (Mem PA 1);
    MOV R14 (Mem PA 2);
    MOV R15 (Mem PA 3);
    MOV RDX (Reg R12);
    MULX R9 R8 (Reg R12);
    MULX R10 RAX (Reg R13);
    ADD R9 (Reg RAX);
    ADC R10 (Imm 0);
    MULX R11 RAX (Reg R14);
    ADD R10 (Reg RAX);
    ADC R11 (Imm 0);
    MULX R12 RAX (Reg R15);
    ADCX R11 (Reg RAX);
    ADC R12 (Imm 0) ].

(** assembly.rs:501-528, [square]: add [a1 * a]. *)
Definition square_row1 : list instr :=
  [ MOV RDX (Reg R13);
    MULX RCX RAX (Mem PA 0);
    ADD R9 (Reg RAX);
    ADCX R10 (Reg RCX);
    ADC R11 (Imm 0);
    MULX RCX RAX (Reg R13);
    ADD R10 (Reg RAX);
    ADCX R11 (Reg RCX);
    ADC R12 (Imm 0);
    XOR_ R13 (Reg R13);
    MULX RCX RAX (Reg R14);
    ADD R11 (Reg RAX);
    ADCX R12 (Reg RCX);
    ADC R13 (Imm 0);
    XOR_ R14 (Reg R14);
    MULX RCX RAX (Reg R15);
    ADD R12 (Reg RAX);
    ADCX R13 (Reg RCX);
    ADC R14 (Imm 0);
    XOR_ R15 (Reg R15) ].

(** assembly.rs:531-555, [square]: add [a2 * a]. *)
Definition square_row2 : list instr :=
  [ MOV RDX (Mem PA 2);
    MULX RCX RAX (Mem PA 0);
    ADD R10 (Reg RAX);
    ADCX R11 (Reg RCX);
    ADC R12 (Imm 0);
    MULX RCX RAX (Mem PA 1);
    ADD R11 (Reg RAX);
    ADCX R12 (Reg RCX);
    ADC R13 (Imm 0);
    MULX RCX RAX (Mem PA 2);
    ADD R12 (Reg RAX);
    ADCX R13 (Reg RCX);
    ADC R14 (Imm 0);
    MULX RCX RAX (Mem PA 3);
    ADCX R13 (Reg RAX);
    ADCX R14 (Reg RCX);
    ADC R15 (Imm 0) ].

(** assembly.rs:558-581, [square]: add [a3 * a]. *)
Definition square_row3 : list instr :=
  [ MOV RDX (Mem PA 3);
    MULX RCX RAX (Mem PA 0);
    ADD R11 (Reg RAX);
    ADCX R12 (Reg RCX);
    ADC R13 (Imm 0);
    MULX RCX RAX (Mem PA 1);
    ADD R12 (Reg RAX);
    ADCX R13 (Reg RCX);
    ADC R14 (Imm 0);
    MULX RCX RAX (Mem PA 2);
    ADD R13 (Reg RAX);
    ADCX R14 (Reg RCX);
    ADC R15 (Imm 0);
    MULX RCX RAX (Mem PA 3);
    ADD R14 (Reg RAX);
    ADC R15 (Reg RCX) ].

(** assembly.rs:196-445, the block of [mul]. *)
Definition mul_body : list instr :=
  mul_row0 ++ mul_row1 ++ mul_row2 ++ mul_row3 ++ redc_row0 ++ redc_row1 ++ redc_row2 ++ redc_row3.
Definition mul_code : list instr := mul_body ++ final_sub ++ second_sub.

(** assembly.rs:474-711, the block of [square]. *)
Definition square_body : list instr :=
  square_row0 ++ square_row1 ++ square_row2 ++ square_row3 ++
  redc_row0 ++ redc_row1 ++ redc_row2 ++ redc_row3.
Definition square_code : list instr := square_body ++ final_sub.

(** assembly.rs:740-766, the block of [neg]. *)
Definition neg_code : list instr :=
  [ MOV R8 (Mem PM 0);
    MOV R9 (Mem PM 1);
    MOV R10 (Mem PM 2);
    MOV R11 (Mem PM 3);
    SUB R8 (Mem PA 0);
    SBB R9 (Mem PA 1);
    SBB R10 (Mem PA 2);
    SBB R11 (Mem PA 3);
    MOV R12 (Mem PA 0);
    MOV R13 (Mem PA 1);
    MOV R14 (Mem PA 2);
    MOV R15 (Mem PA 3);
    OR_ R12 (Reg R13);
    OR_ R14 (Reg R15);
    OR_ R12 (Reg R14);
    MOV R13 (Imm 0xffffffffffffffff);
    CMP R12 (Imm 0x0000000000000000);
    CMOVE R13 (Reg R12);
    AND_ R8 (Reg R13);
    AND_ R9 (Reg R13);
    AND_ R10 (Reg R13);
    AND_ R11 (Reg R13) ].

(** The functions: run the block from any processor state [s] and read the output
    registers ([out("r..") r0] ... [r3]). *)

(** assembly.rs:3-55 [add]: outputs r12-r15. *)
Definition asm_add (s : cpu) (a b p : l4) : l4 :=
  let t := exec (MemOf a b p) add_code s in L4 (r12 t) (r13 t) (r14 t) (r15 t).

(** assembly.rs:57-109 [sub]: outputs r12-r15. *)
Definition asm_sub (s : cpu) (a b p : l4) : l4 :=
  let t := exec (MemOf a b p) sub_code s in L4 (r12 t) (r13 t) (r14 t) (r15 t).

(** assembly.rs:111-162 [double]: outputs r12-r15; there is no [b]. *)
Definition asm_double (s : cpu) (a p : l4) : l4 :=
  let t := exec (MemOf a a p) double_code s in L4 (r12 t) (r13 t) (r14 t) (r15 t).

(** assembly.rs:164-465 [mul]: outputs r8-r11. *)
Definition asm_mul (s : cpu) (a b p : l4) : l4 :=
  let t := exec (MemOf a b p) mul_code s in L4 (r8 t) (r9 t) (r10 t) (r11 t).

(** assembly.rs:467-730 [square]: outputs r8-r11. *)
Definition asm_square (s : cpu) (a p : l4) : l4 :=
  let t := exec (MemOf a a p) square_code s in L4 (r8 t) (r9 t) (r10 t) (r11 t).

(** assembly.rs:732-782 [neg]: outputs r8-r11. *)
Definition asm_neg (s : cpu) (a p : l4) : l4 :=
  let t := exec (MemOf a a p) neg_code s in L4 (r8 t) (r9 t) (r10 t) (r11 t).

(** The constant written into [mul] and [square] (assembly.rs:306, 334, 362, 390 and
    587, 615, 643, 671), where the portable backend takes the field's [INV]. *)
Definition ASM_INV : Z := 0x1ba3a358ef788ef9.
