(** Model of src/fiber/platform/sysv/x86_64: the assembler routines that prepare a fiber and
    switch between fibers, on a machine with 64-bit registers and memory of bytes, some of
    which are not mapped.  Simplified: flags, and the parts of the floating point and vector
    state other than the two control words, are left out (the code touches none). *)
From Verif Require Import Base.

Inductive reg := RAX | RBX | RCX | RDX | RSI | RDI | RBP | RSP | R8 | R9 | R10 | R11 | R12 | R13 | R14 | R15.
Definition reg_no (r : reg) : Z :=
  match r with RAX => 0 | RBX => 3 | RCX => 1 | RDX => 2 | RSI => 6 | RDI => 7 | RBP => 5 | RSP => 4
  | R8 => 8 | R9 => 9 | R10 => 10 | R11 => 11 | R12 => 12 | R13 => 13 | R14 => 14 | R15 => 15 end.
Definition same_reg (a b : reg) : bool := reg_no a =? reg_no b.
(** [mem b] is the byte at [b], [None] if it is not mapped. *)
Record mach := Mach { g : reg -> Z; mxcsr : Z; fcw : Z; mem : Z -> option Z; pc : Z }.
Definition set_reg (r : reg) (v : Z) (m : mach) : mach := Mach (fun x => if same_reg x r then v else g m x) (mxcsr m) (fcw m) (mem m) (pc m).
Definition set_mem (k : Z -> option Z) (m : mach) : mach := Mach (g m) (mxcsr m) (fcw m) k (pc m).
Definition set_mxcsr (v : Z) (m : mach) : mach := Mach (g m) v (fcw m) (mem m) (pc m).
Definition set_fcw (v : Z) (m : mach) : mach := Mach (g m) (mxcsr m) v (mem m) (pc m).
Definition set_pc (v : Z) (m : mach) : mach := Mach (g m) (mxcsr m) (fcw m) (mem m) v.

(** Little-endian accesses of [n] bytes; an access to a byte that is not mapped faults, as
    does one that passes the end of the address space. *)
Fixpoint ld (n : nat) (k : Z -> option Z) (a : Z) : option Z :=
  match n with O => Some 0 | S n => do b <- k a; do h <- ld n k (a + 1); Some (b + 256 * h) end.
Fixpoint st (n : nat) (k : Z -> option Z) (a v : Z) : option (Z -> option Z) :=
  match n with
  | O => Some k
  | S n => do _ <- k a; st n (fun b => if b =? a then Some (v mod 256) else k b) (a + 1) (v / 256)
  end.
Definition ea (m : mach) (off : Z) (r : reg) : Z := wrap64 (g m r + off).

Inductive instr :=
| Lea (off : Z) (b d : reg)        (* leaq off(b), d *)
| Mov (s d : reg)                  (* movq s, d *)
| Load (off : Z) (b d : reg)       (* movq off(b), d *)
| LoadAbs (a : Z) (d : reg)        (* movq a, d *)
| Store (s : reg) (off : Z) (b : reg)   (* movq s, off(b) *)
| AndI (i : Z) (d : reg)           (* andq $i, d *)
| LeaL (l : Z) (d : reg)           (* leaq label(%rip), d *)
| Stmxcsr (off : Z) (b : reg) | Fnstcw (off : Z) (b : reg) | Ldmxcsr (off : Z) (b : reg) | Fldcw (off : Z) (b : reg)
| Push (s : reg)
| Jmp (r : reg)                    (* jmp *r *)
| JmpL (l : Z)
| Ret.

(** One instruction; [Some (true, _)] if control leaves the code, [None] on a fault. *)
Definition step1 (i : instr) (m : mach) : option (bool * mach) :=
  let on m := Some (false, m) in
  match i with
  | Lea off b d => on (set_reg d (ea m off b) m)
  | Mov s d => on (set_reg d (g m s) m)
  | Load off b d => do v <- ld 8 (mem m) (ea m off b); on (set_reg d v m)
  | LoadAbs a d => do v <- ld 8 (mem m) a; on (set_reg d v m)
  | Store s off b => do k <- st 8 (mem m) (ea m off b) (g m s); on (set_mem k m)
  | AndI i d => on (set_reg d (Z.land (g m d) (wrap64 i)) m)
  | LeaL l d => on (set_reg d l m)
  | Stmxcsr off b => do k <- st 4 (mem m) (ea m off b) (mxcsr m); on (set_mem k m)
  | Fnstcw off b => do k <- st 2 (mem m) (ea m off b) (fcw m); on (set_mem k m)
  | Ldmxcsr off b => do v <- ld 4 (mem m) (ea m off b); on (set_mxcsr v m)
  | Fldcw off b => do v <- ld 2 (mem m) (ea m off b); on (set_fcw v m)
  | Push s => do k <- st 8 (mem m) (ea m (-8) RSP) (g m s); on (set_reg RSP (ea m (-8) RSP) (set_mem k m))
  | Jmp r => Some (true, set_pc (g m r) m)
  | JmpL l => Some (true, set_pc l m)
  | Ret => do v <- ld 8 (mem m) (g m RSP); Some (true, set_pc v (set_reg RSP (ea m 8 RSP) m))
  end.
Fixpoint exec (c : list instr) (m : mach) : option mach :=
  match c with
  | [] => None
  | i :: c => do '(out, m) <- step1 i m; if (out : bool) then Some m else exec c m
  end.

(** fiber_struct.inc:11-32, and fiber_internal.h:27-45 *)
Definition fiber_stack_ptr : Z := 8.
Definition fiber_restore_discipline_id : Z := 64.
Definition fiber_restore_reason_code : Z := 72.
Definition fiber_restore_param : Z := 80.

(** fiber_switch.s:48-112 *)
Definition switch_code : list instr :=
  [ Lea (-0x38) RSP RSP;
    Stmxcsr 0 RSP; Fnstcw 0x4 RSP;
    Store R12 0x8 RSP; Store R13 0x10 RSP; Store R14 0x18 RSP; Store R15 0x20 RSP; Store RBX 0x28 RSP; Store RBP 0x30 RSP;
    Store RSP fiber_stack_ptr RDI;
    Load fiber_stack_ptr RSI RSP;
    Load 0x38 RSP R9;
    Ldmxcsr 0 RSP; Fldcw 0x4 RSP;
    Load 0x8 RSP R12; Load 0x10 RSP R13; Load 0x18 RSP R14; Load 0x20 RSP R15; Load 0x28 RSP RBX; Load 0x30 RSP RBP;
    Store RDX fiber_restore_discipline_id RSI; Store RCX fiber_restore_reason_code RSI; Store R8 fiber_restore_param RSI;
    Lea 0x40 RSP RSP;
    Jmp R9 ].
(** fiber_make.s:48-93, with the addresses of the two labels *)
Definition make_code (trampoline finish : Z) : list instr :=
  [ Load fiber_stack_ptr RDI RAX;
    AndI (-16) RAX;
    Lea (-0x40) RAX RAX;
    Store RDX 0x28 RAX; Store RDI 0x20 RAX; Store RSI 0x18 RAX;
    Stmxcsr 0 RAX; Fnstcw 0x4 RAX;
    LeaL trampoline RCX; Store RCX 0x38 RAX;
    LeaL finish RCX; Store RCX 0x30 RAX;
    Store RAX fiber_stack_ptr RDI;
    Ret ].
(** fiber_make.s:95-105 *)
Definition trampoline_code : list instr := [ Mov R14 RDI; Mov R15 RSI; Push RBP; Jmp RBX ].
(** fiber_make.s:107-112: "mov 0x1, %rdi" reads memory at address 1; the call of _exit is
    taken as a jump, as it does not return *)
Definition finish_code (exit : Z) : list instr := [ LoadAbs 1 RDI; JmpL exit ].
