(** C44: switching between fibers. *)
From Verif Require Import Base AsmModel AsmSpec AsmProofs.

Lemma none_inv : forall L c m, inv L c m none.
Proof. intros L c m f P K. discriminate. Qed.
Lemma steps_inv : forall L tramp fin x h y, separated L -> word_ok tramp -> word_ok fin -> inv L (fst (fst x)) (snd (fst x)) (snd x) -> steps L tramp fin x h y -> inv L (fst (fst y)) (snd (fst y)) (snd y).
Proof.
  intros L tramp fin x h y SP OT OI I H. induction H as [x|x h c m s mc ret next m' H IH SW X|x h c m s mc ret f m' H IH MK X]; [exact I| |]; specialize (IH I); cbn [fst snd] in *.
  - destruct (switch_ok _ _ _ _ _ _ _ SP IH SW) as (m1 & X1 & _ & _ & _ & _ & _ & _ & _ & J). rewrite X in X1. inversion X1; subst. exact J.
  - destruct (make_step _ tramp fin _ _ _ _ _ _ SP OT OI IH MK) as (m1 & sp & X1 & _ & _ & _ & _ & _ & _ & J). rewrite X in X1. inversion X1; subst. exact J.
Qed.

(** ** C44 *)
(** At any point of any history of fibers that are made and switch, in which no fiber
    writes to the stacks or stack pointers of others, a switch from [c] to a fiber that was
    made or has switched away completes, without fault.  [next] goes on in the context in
    which it waits: that in which its call of fiber_switch returns, or that of a new fiber.
    It finds the three resume values where it reads them.  Nothing else in memory changes
    but 56 bytes below the stack pointer of [c] and the stack pointer kept in [c]. *)
Theorem C44_switch : forall L tramp fin c0 m0 h c m s mc ret next, separated L -> word_ok tramp -> word_ok fin ->
  steps L tramp fin (c0, m0, none) h (c, m, s) -> switches L c m s mc ret next ->
  exists m', exec switch_code mc = Some m' /\
    (next = c -> ctx_of m' = return_ctx mc ret) /\ (next <> c -> exists P, s next = Some P /\ P (ctx_of m')) /\
    word m' (next + 64) = Some (g mc RDX) /\ word m' (next + 72) = Some (g mc RCX) /\ word m' (next + 80) = Some (g mc R8) /\
    (forall b, ~ (g mc RSP - 56 <= b < g mc RSP) -> ~ (c + 8 <= b < c + 16) -> ~ (next + 64 <= b < next + 88) -> mem m' b = mem mc b).
Proof.
  intros L tramp fin c0 m0 h c m s mc ret next SP OT OI H SW. pose proof (steps_inv L tramp fin (c0, m0, none) _ _ SP OT OI (none_inv L c0 m0) H) as I. cbn [fst snd] in I.
  destruct (switch_ok _ _ _ _ _ _ _ SP I SW) as (m' & X & (P & PP & PC) & W1 & W2 & W3 & U & _). exists m'. split; [exact X|]. unfold put in PP. split; [|split].
  - intros ->. rewrite Z.eqb_refl in PP. inversion PP; subst P. auto.
  - intros N. apply Z.eqb_neq in N. rewrite N in PP. eauto.
  - auto.
Qed.
(** Making a fiber completes without fault, returns to its caller in the caller's context
    and touches nothing but the stack and the stack pointer of the new fiber. *)
Theorem C44_make : forall L tramp fin c0 m0 h c m s mc ret f, separated L -> word_ok tramp -> word_ok fin ->
  steps L tramp fin (c0, m0, none) h (c, m, s) -> makes L c m mc ret f ->
  exists m', exec (make_code tramp fin) mc = Some m' /\ ctx_of m' = return_ctx mc ret /\
    (forall b, ~ stack L f b -> ~ (f + 8 <= b < f + 16) -> mem m' b = mem mc b).
Proof.
  intros L tramp fin c0 m0 h c m s mc ret f SP OT OI H MK. pose proof (steps_inv L tramp fin (c0, m0, none) _ _ SP OT OI (none_inv L c0 m0) H) as I. cbn [fst snd] in I.
  destruct (make_step _ tramp fin _ _ _ _ _ _ SP OT OI I MK) as (m' & sp & X & CX & S1 & S2 & U & _). exists m'. do 2 (split; [assumption|]). intros b B. apply U. unfold stack in B. lia.
Qed.
(** A new fiber starts at its entry point with the scheduler and itself as arguments, the
    control words of its maker, and the stack aligned as the ABI demands; the return
    address is [fin]. *)
Theorem C44_start : forall L tramp fin f sched entry mk m, separated L -> fib L f -> mapped L f m -> fresh L tramp fin f sched entry mk (ctx_of m) -> word_ok fin ->
  exists m', exec trampoline_code m = Some m' /\ pc m' = entry /\ g m' RDI = sched /\ g m' RSI = f /\ (g m' RSP + 8) mod 16 = 0 /\ word m' (g m' RSP) = Some fin /\
    mxcsr m' = mxcsr mk /\ fcw m' = fcw mk /\ lo L f + 0x38 <= g m' RSP /\ g m' RSP + 8 <= hi L f /\
    (forall b, ~ (g m' RSP <= b < g m' RSP + 8) -> mem m' b = mem m b).
Proof.
  intros L tramp fin f sched entry mk [G mx fc k p] SP FF MF FR OI. unfold fresh, ctx_of, ctx_with in FR. cbn in FR. destruct FR as (F1 & F2 & F3 & F4 & F5 & F6 & F7 & F8 & F9 & F10).
  destruct (sp_stack _ SP f FF) as [C3 C4]. unfold mapped in MF. cbn [mem] in MF. unfold stack in MF.
  destruct (st_spec 8 k (G RSP - 8) fin) as (k' & E & W); [cbn [Z.of_nat Pos.of_succ_nat Pos.succ]; intros b B; apply MF; lia|exact OI|].
  eexists. unfold trampoline_code. cbn [exec step1]. cbn iota. unfold set_reg, ea. cbn [g mem mxcsr fcw pc same_reg reg_no Z.eqb Pos.eqb].
  rewrite ea_id by lia. rewrite F3. replace (G RSP + -8) with (G RSP - 8) by lia. rewrite E. split; [reflexivity|]. unfold set_mem, set_pc, word. cbn [g mem mxcsr fcw pc same_reg reg_no Z.eqb Pos.eqb].
  do 3 (split; [assumption|]). split; [replace (G RSP - 8 + 8) with (G RSP) by lia; exact F8|]. split; [exact (wr_ld _ _ _ _ _ W)|]. do 2 (split; [assumption|]). do 2 (split; [lia|]).
  intros b B. apply (wr_other _ _ _ _ _ W). cbn [Z.of_nat Pos.of_succ_nat Pos.succ]. lia.
Qed.
(** The whole way: fiber [f] switches away, others run, switch and make fibers, and at the
    next switch to [f] its call returns with its registers, stack pointer and control words
    as they were, its stack is as it left it, and it finds the resume values of that
    switch. *)
Lemma away : forall L tramp fin f x h y, separated L -> word_ok tramp -> word_ok fin -> fib L f -> inv L (fst (fst x)) (snd (fst x)) (snd x) -> steps L tramp fin x h y ->
  fst (fst x) <> f -> ~ In (ESwitch f) h -> ~ In (EMake f) h ->
  fst (fst y) <> f /\ snd y f = snd x f /\ forall b, stack L f b -> mem (snd (fst y)) b = mem (snd (fst x)) b.
Proof.
  intros L tramp fin f x h y SP OT OI FF I H. induction H as [x|x h c m s mc ret next m' H IH SW X|x h c m s mc ret f2 m' H IH MK X]; intros NX NS NM; [auto| |].
  - assert (IH' := IH I NX ltac:(intros K; apply NS, in_or_app; auto) ltac:(intros K; apply NM, in_or_app; auto)). clear IH. cbn [fst snd] in *. destruct IH' as (A & B & C).
    pose proof (steps_inv _ _ _ _ _ _ SP OT OI I H) as J. cbn [fst snd] in J. pose proof SW as SW'. destruct SW' as (MR & (FC & MC & R1 & R2 & _) & _ & _ & FN & _).
    destruct (switch_ok _ _ _ _ _ _ _ SP J SW) as (m1 & X1 & _ & _ & _ & _ & U & _). rewrite X in X1. inversion X1; subst m1; clear X1.
    split; [intros ->; apply NS, in_or_app; right; left; auto|]. split.
    + unfold put. destruct (Z.eqb_spec f c); [congruence|auto].
    + intros b S1. rewrite U.
      * rewrite (mr_stack _ _ _ _ MR f b) by auto. auto.
      * intros K. apply (sp_stacks _ SP f c b FF FC); [auto|auto|unfold stack; lia].
      * intros K. apply (sp_both _ SP c f b FC FF); [unfold struct, FIBER_SIZE; lia|auto].
      * intros K. apply (sp_both _ SP next f b FN FF); [unfold struct, FIBER_SIZE; lia|auto].
  - assert (IH' := IH I NX ltac:(intros K; apply NS, in_or_app; auto) ltac:(intros K; apply NM, in_or_app; auto)). clear IH. cbn [fst snd] in *. destruct IH' as (A & B & C).
    pose proof (steps_inv _ _ _ _ _ _ SP OT OI I H) as J. cbn [fst snd] in J. pose proof MK as MK'. destruct MK' as (MR & _ & _ & F2 & _).
    assert (N2 : f2 <> f) by (intros ->; apply NM, in_or_app; right; left; auto).
    destruct (make_step _ tramp fin _ _ _ _ _ _ SP OT OI J MK) as (m1 & sp & X1 & _ & S1 & S2 & U & _). rewrite X in X1. inversion X1; subst m1; clear X1.
    split; [auto|]. split.
    + unfold put. destruct (Z.eqb_spec f f2); [congruence|auto].
    + intros b SB. rewrite U.
      * rewrite (mr_stack _ _ _ _ MR f b) by auto. auto.
      * intros K. apply (sp_stacks _ SP f f2 b FF F2); [auto|auto|unfold stack; lia].
      * intros K. apply (sp_both _ SP f2 f b F2 FF); [unfold struct, FIBER_SIZE; lia|auto].
Qed.
Theorem C44_round_trip : forall L tramp fin c0 m0 h1 f m s mc ret next m1 h2 c2 m2 s2 mc2 ret2 m3, separated L -> word_ok tramp -> word_ok fin ->
  steps L tramp fin (c0, m0, none) h1 (f, m, s) -> switches L f m s mc ret next -> exec switch_code mc = Some m1 -> next <> f ->
  steps L tramp fin (next, m1, put f (eq (return_ctx mc ret)) s) h2 (c2, m2, s2) -> ~ In (ESwitch f) h2 -> ~ In (EMake f) h2 ->
  switches L c2 m2 s2 mc2 ret2 f -> exec switch_code mc2 = Some m3 ->
  ctx_of m3 = return_ctx mc ret /\ word m3 (f + 64) = Some (g mc2 RDX) /\ word m3 (f + 72) = Some (g mc2 RCX) /\ word m3 (f + 80) = Some (g mc2 R8) /\
  (forall b, g mc RSP <= b < hi L f -> mem m3 b = mem mc b).
Proof.
  intros L tramp fin c0 m0 h1 f m s mc ret next m1 h2 c2 m2 s2 mc2 ret2 m3 SP OT OI H1 SW1 X1 NF H2 NS NM SW2 X2.
  pose proof (steps_inv L tramp fin (c0, m0, none) _ _ SP OT OI (none_inv L c0 m0) H1) as I. cbn [fst snd] in I.
  destruct (switch_ok _ _ _ _ _ _ _ SP I SW1) as (m1' & X1' & _ & _ & _ & _ & U1 & _ & _ & I1). rewrite X1 in X1'. inversion X1'; subst m1'; clear X1'.
  pose proof SW1 as (MR1 & (FF & MC & R1 & R2 & _) & _ & _ & FN & _).
  destruct (away L tramp fin f (next, m1, put f (eq (return_ctx mc ret)) s) _ _ SP OT OI FF I1 H2 NF NS NM) as (A & B & C). cbn [fst snd] in *.
  pose proof (steps_inv L tramp fin (next, m1, put f (eq (return_ctx mc ret)) s) _ _ SP OT OI I1 H2) as I2. cbn [fst snd] in I2. unfold put in B. rewrite Z.eqb_refl in B.
  destruct (switch_ok _ _ _ _ _ _ _ SP I2 SW2) as (m3' & X3 & (P & PP & PC) & W1 & W2 & W3 & U3 & _). rewrite X2 in X3. inversion X3; subst m3'; clear X3.
  unfold put in PP. destruct (Z.eqb_spec f c2) as [E|_]; [congruence|]. rewrite B in PP. inversion PP; subst P. split; [auto|]. do 3 (split; [assumption|]).
  intros b SB. pose proof SW2 as (MR2 & (FC2 & MC2 & R3 & R4 & _) & _). assert (SB' : stack L f b) by (unfold stack; lia). rewrite U3.
  - rewrite (mr_stack _ _ _ _ MR2 f b) by auto. rewrite C by auto. apply U1; [lia| |].
    + intros K. apply (sp_both _ SP f f b FF FF); [unfold struct, FIBER_SIZE; lia|auto].
    + intros K. apply (sp_both _ SP next f b FN FF); [unfold struct, FIBER_SIZE; lia|auto].
  - intros K. apply (sp_stacks _ SP f c2 b FF FC2); [auto|auto|unfold stack; lia].
  - intros K. apply (sp_both _ SP c2 f b FC2 FF); [unfold struct, FIBER_SIZE; lia|auto].
  - intros K. apply (sp_both _ SP f f b FF FF); [unfold struct, FIBER_SIZE; lia|auto].
Qed.
(** Fiber 4096 makes fiber 4352 and switches to it, and it switches back. *)
Definition L44 : layout := Layout (fun f => f = 4096 \/ f = 4352) (fun f => if f =? 4096 then 8192 else 12288) (fun f => if f =? 4096 then 9216 else 13312).
Definition k44 : Z -> option Z := fun b => if b =? 4361 then Some 52 else if b =? 9000 then Some 88 else if b =? 9001 then Some 2 else if (4096 <=? b) && (b <? 16384) then Some 0 else None.
Definition g44 (rdi rsi rdx rcx r8 rsp : Z) : reg -> Z := fun r => match r with RDI => rdi | RSI => rsi | RDX => rdx | RCX => rcx | R8 => r8 | RSP => rsp | RBX => 21 | RBP => 22 | R12 => 23 | R13 => 24 | R14 => 25 | R15 => 26 | _ => 0 end.
Definition m44 : mach := Mach (g44 4352 77 5000 0 0 9000) 8064 895 k44 0.
Lemma L44_ok : separated L44.
Proof.
  constructor; cbn [fib lo hi L44]; unfold struct, stack, FIBER_SIZE; cbn [lo hi L44].
  - intros f [->| ->]; lia.
  - intros f [->| ->]; cbn; lia.
  - intros f f' b [->| ->] [->| ->] N; lia.
  - intros f f' b [->| ->] [->| ->] N; try lia; cbn; lia.
  - intros f f' b [->| ->] [->| ->]; cbn; lia.
Qed.
Lemma g44_ok : forall a b c d e f, word_ok a -> word_ok b -> word_ok c -> word_ok d -> word_ok e -> word_ok f -> forall r, word_ok (g44 a b c d e f r).
Proof. intros. destruct r; cbn [g44]; auto; unfold word_ok; lia. Qed.
Lemma only_regs : forall L c m G mx fc p, bytes (mem m) -> (forall r, word_ok (G r)) -> 0 <= mx < 2^32 -> 0 <= fc < 2^16 -> may_run L c m (Mach G mx fc (mem m) p).
Proof. intros. constructor; cbn [mem]; auto. repeat (split; [assumption|]). assumption. Qed.
Example C44_example : exists mc m3 s, steps L44 600 700 (4096, m44, none) [EMake 4352; ESwitch 4352; ESwitch 4096] (4096, m3, s) /\
  mxcsr mc = 8064 /\ g mc RBX = 21 /\ g mc RSP = 9000 /\ ctx_of m3 = return_ctx mc 600 /\ word m3 (4096 + 72) = Some 5.
Proof.
  assert (W6 : word_ok 600) by (unfold word_ok; lia). assert (W7 : word_ok 700) by (unfold word_ok; lia).
  assert (B0 : bytes k44). { intros b v. unfold k44. repeat match goal with |- context[if ?c then _ else _] => destruct c end; intros K; inversion K; lia. }
  assert (K0 : forall b, 4096 <= b < 16384 -> k44 b <> None).
  { intros b B. unfold k44. repeat match goal with |- context[if ?c then _ else _] => destruct c eqn:?; try discriminate end. lia. }
  assert (MP : forall m, (forall b, k44 b <> None -> mem m b <> None) -> mapped L44 4096 m /\ mapped L44 4352 m).
  { intros m H. split; intros b [B|B]; apply H, K0; unfold stack, struct, FIBER_SIZE in B; cbn in B; lia. }
  assert (MK : makes L44 4096 m44 m44 600 4352).
  { split; [apply (only_regs L44 4096 m44 (g44 4352 77 5000 0 0 9000) 8064 895 0 B0); [apply g44_ok; unfold word_ok; lia|lia|lia]|].
    destruct (MP m44 ltac:(auto)) as [M1 M2]. split; [split; [left; auto|split; [exact M1|cbn; split; [lia|split; [lia|vm_compute; reflexivity]]]]|].
    split; [reflexivity|]. split; [right; auto|]. split; [lia|]. split; [exact M2|]. exists 13312. split; [vm_compute; reflexivity|cbn; lia]. }
  destruct (make_step L44 600 700 4096 m44 none m44 600 4352 L44_ok W6 W7 (none_inv _ _ _) MK) as (m1 & sp & X1 & C1 & S1 & S2 & U1 & P1 & B1 & I1).
  assert (H1 : steps L44 600 700 (4096, m44, none) [EMake 4352] (4096, m1, put 4352 (fresh L44 600 700 4352 77 5000 m44) none)) by (apply (steps_make L44 600 700 _ [] 4096 m44 none m44 600 4352 m1 (steps_none _ _ _ _) MK X1)).
  set (mc := Mach (g44 4096 4352 1 2 3 9000) 8064 895 (mem m1) 0).
  assert (SW1 : switches L44 4096 m1 (put 4352 (fresh L44 600 700 4352 77 5000 m44) none) mc 600 4352).
  { split; [apply only_regs; [exact B1|apply g44_ok; unfold word_ok; lia|lia|lia]|]. destruct (MP mc P1) as [M1 M2].
    split; [split; [left; auto|split; [exact M1|split; [cbn; lia|split; [cbn; lia|]]]]|].
    - change (ld 8 (mem m1) 9000 = Some 600). rewrite (ld_ext 8 k44); [vm_compute; reflexivity|]. cbn [Z.of_nat Pos.of_succ_nat Pos.succ]. intros b B. change k44 with (mem m44). apply U1; cbn in S1, S2; lia.
    - split; [reflexivity|]. split; [reflexivity|]. split; [right; auto|]. right. discriminate. }
  destruct (switch_ok L44 _ _ _ _ _ _ L44_ok I1 SW1) as (m2 & X2 & (Q & PQ & CQ) & _ & _ & _ & U2 & P2 & B2 & I2). inversion PQ; subst Q. clear PQ.
  pose proof (steps_switch L44 600 700 _ _ _ _ _ _ _ _ _ H1 SW1 X2) as H2. cbn [app] in H2.
  set (mc2 := Mach (g44 4352 4096 4 5 6 13000) 1 2 (mem m2) 0).
  assert (P3 : forall b, k44 b <> None -> mem m2 b <> None) by (intros b K; apply P2, P1, K).
  destruct (MP mc2 P3) as [M1 M2].
  destruct (ld_some 8 (mem m2) 13000 B2) as (ret & RT & _); [cbn [Z.of_nat Pos.of_succ_nat Pos.succ]; intros b B; apply P3, K0; lia|].
  assert (SW2 : switches L44 4352 m2 (put 4096 (eq (return_ctx mc 600)) (put 4352 (fresh L44 600 700 4352 77 5000 m44) none)) mc2 ret 4096).
  { split; [apply only_regs; [exact B2|apply g44_ok; unfold word_ok; lia|lia|lia]|].
    split; [split; [right; auto|split; [exact M2|split; [cbn; lia|split; [cbn; lia|exact RT]]]]|]. split; [reflexivity|]. split; [reflexivity|]. split; [left; auto|]. right. discriminate. }
  destruct (C44_switch L44 600 700 _ _ _ _ _ _ _ _ _ L44_ok W6 W7 H2 SW2) as (m3 & X3 & _ & (Q & PQ & CQ2) & _ & R5 & _); [lia|]. inversion PQ; subst Q.
  exists mc, m3. eexists. split; [exact (steps_switch L44 600 700 _ _ _ _ _ _ _ _ _ H2 SW2 X3)|]. do 3 (split; [reflexivity|]). split; [auto|]. exact R5.
Qed.
(** If the entry function returned, the process would not exit as fiber_make.s:107-112
    means it to: the first instruction reads address 1, which no process has mapped. *)
Theorem C44_finish_refuted : forall exit m, mem m 1 = None -> exec (finish_code exit) m = None.
Proof. intros exit m H. cbn. rewrite H. reflexivity. Qed.

Print Assumptions C44_switch.
Print Assumptions C44_make.
Print Assumptions C44_start.
Print Assumptions C44_round_trip.
Print Assumptions C44_finish_refuted.
