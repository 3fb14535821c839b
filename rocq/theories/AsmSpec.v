(** What a switch between fibers should do. *)
From Verif Require Import Base AsmModel.

(** What must survive a call (System V ABI, x86-64): the registers that belong to the
    caller, the stack pointer and the two control words; and where the call returns to. *)
Record ctx := Ctx { k_rbx : Z; k_rbp : Z; k_r12 : Z; k_r13 : Z; k_r14 : Z; k_r15 : Z; k_mxcsr : Z; k_fcw : Z; k_rsp : Z; k_rip : Z }.
Definition ctx_with (rsp rip : Z) (m : mach) : ctx :=
  Ctx (g m RBX) (g m RBP) (g m R12) (g m R13) (g m R14) (g m R15) (mxcsr m) (fcw m) rsp rip.
(** The context in which [m] runs. *)
Definition ctx_of (m : mach) : ctx := ctx_with (g m RSP) (pc m) m.
Definition word (m : mach) (a : Z) : option Z := ld 8 (mem m) a.
(** At the entry of a function, when its return address is on top of the stack: the
    context in which its caller goes on. *)
Definition return_ctx (m : mach) (ret : Z) : ctx := ctx_with (g m RSP + 8) ret m.

(** ** The layout of memory *)
(** Fiber [f] is at address [f], its stack from [lo f] to [hi f]. *)
Record layout := Layout { fib : Z -> Prop; lo : Z -> Z; hi : Z -> Z }.
Definition FIBER_SIZE : Z := 104.
Definition struct (f b : Z) : Prop := f <= b < f + FIBER_SIZE.
Definition stack (L : layout) (f b : Z) : Prop := lo L f <= b < hi L f.
(** Stacks and structs do not overlap and lie in the address space. *)
Record separated (L : layout) : Prop := Separated
  { sp_struct : forall f, fib L f -> 0 <= f /\ f + FIBER_SIZE <= 2^64;
    sp_stack : forall f, fib L f -> 0 <= lo L f /\ hi L f < 2^64;
    sp_structs : forall f f' b, fib L f -> fib L f' -> f <> f' -> struct f b -> ~ struct f' b;
    sp_stacks : forall f f' b, fib L f -> fib L f' -> f <> f' -> stack L f b -> ~ stack L f' b;
    sp_both : forall f f' b, fib L f -> fib L f' -> struct f b -> ~ stack L f' b }.
(** Registers hold what fits in them. *)
Definition word_ok (v : Z) : Prop := 0 <= v < 2^64.
Definition mach_ok (m : mach) : Prop := (forall r, word_ok (g m r)) /\ 0 <= mxcsr m < 2^32 /\ 0 <= fcw m < 2^16 /\ forall b v, mem m b = Some v -> 0 <= v < 256.

(** What the code that runs in fiber [c] may do between two switches: anything but to write
    to the stack of another fiber or to where its stack pointer is kept. *)
Record may_run (L : layout) (c : Z) (m m' : mach) : Prop := MayRun
  { mr_ok : mach_ok m';
    mr_stack : forall f b, fib L f -> f <> c -> stack L f b -> mem m' b = mem m b;
    mr_ptr : forall f b, fib L f -> f <> c -> f + fiber_stack_ptr <= b < f + fiber_stack_ptr + 8 -> mem m' b = mem m b;
    mr_mapped : forall f b, fib L f -> stack L f b \/ struct f b -> mem m b <> None -> mem m' b <> None }.
Definition mapped (L : layout) (f : Z) (m : mach) : Prop := forall b, stack L f b \/ struct f b -> mem m b <> None.
(** Fiber [c] calls a routine: there is room on its stack. *)
Definition calls (L : layout) (c ret : Z) (m : mach) : Prop :=
  fib L c /\ mapped L c m /\ lo L c + 0x38 <= g m RSP /\ g m RSP + 8 <= hi L c /\ word m (g m RSP) = Some ret.

(** ** Histories *)
(** The context in which each fiber that does not run must go on. *)
Definition waiting := Z -> option (ctx -> Prop).
Definition none : waiting := fun _ => None.
Definition put (f : Z) (P : ctx -> Prop) (s : waiting) : waiting := fun x => if x =? f then Some P else s x.
(** A fiber that was made with these arguments starts at [tramp], with this in its registers,
    the control words of its maker and an aligned stack. *)
Definition fresh (L : layout) (tramp fin f sched entry : Z) (m : mach) (k : ctx) : Prop :=
  k_rip k = tramp /\ k_rbx k = entry /\ k_rbp k = fin /\ k_r14 k = sched /\ k_r15 k = f /\ k_mxcsr k = mxcsr m /\ k_fcw k = fcw m /\
  k_rsp k mod 16 = 0 /\ lo L f + 0x40 <= k_rsp k <= hi L f.
(** The fiber that runs, the machine, and what waits, after a history of calls of the two
    routines by fibers that keep to the rules above. *)
Inductive event := ESwitch (next : Z) | EMake (f : Z).
Definition switches (L : layout) (c : Z) (m : mach) (s : waiting) (mc : mach) (ret next : Z) : Prop :=
  may_run L c m mc /\ calls L c ret mc /\ g mc RDI = c /\ g mc RSI = next /\ fib L next /\ (next = c \/ s next <> None).
Definition makes (L : layout) (c : Z) (m : mach) (mc : mach) (ret f : Z) : Prop :=
  may_run L c m mc /\ calls L c ret mc /\ g mc RDI = f /\ fib L f /\ f <> c /\ mapped L f mc /\
  exists top, word mc (f + fiber_stack_ptr) = Some top /\ lo L f + 0x50 <= top <= hi L f.
Inductive steps (L : layout) (tramp fin : Z) : Z * mach * waiting -> list event -> Z * mach * waiting -> Prop :=
| steps_none : forall x, steps L tramp fin x [] x
| steps_switch : forall x h c m s mc ret next m',
    steps L tramp fin x h (c, m, s) -> switches L c m s mc ret next -> exec switch_code mc = Some m' ->
    steps L tramp fin x (h ++ [ESwitch next]) (next, m', put c (eq (return_ctx mc ret)) s)
| steps_make : forall x h c m s mc ret f m',
    steps L tramp fin x h (c, m, s) -> makes L c m mc ret f -> exec (make_code tramp fin) mc = Some m' ->
    steps L tramp fin x (h ++ [EMake f]) (c, m', put f (fresh L tramp fin f (g mc RSI) (g mc RDX) mc) s).
