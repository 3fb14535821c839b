(** The assembler routines do what AsmSpec.v says. *)
From Verif Require Import Base AsmModel AsmSpec.

(** ** Memory *)
Definition bytes (k : Z -> option Z) : Prop := forall b v, k b = Some v -> 0 <= v < 256.
Lemma ld_ext : forall n k k' a, (forall b, a <= b < a + Z.of_nat n -> k' b = k b) -> ld n k' a = ld n k a.
Proof.
  induction n as [|n IH]; intros k k' a H; [reflexivity|]. cbn [ld]. rewrite H by lia. destruct (k a); [|reflexivity]. rewrite (IH k k'); [reflexivity|]. intros b B. apply H. lia.
Qed.
Lemma ld_some : forall n k a, bytes k -> (forall b, a <= b < a + Z.of_nat n -> k b <> None) -> exists v, ld n k a = Some v /\ 0 <= v < 256 ^ Z.of_nat n.
Proof.
  induction n as [|n IH]; intros k a B H; [exists 0; split; [reflexivity|cbn; lia]|]. cbn [ld]. destruct (k a) as [x|] eqn:E; [|exfalso; apply (H a); [lia|auto]].
  destruct (IH k (a + 1) B) as (v & -> & V); [intros b Q; apply H; lia|]. exists (x + 256 * v). split; [reflexivity|]. apply B in E. rewrite Nat2Z.inj_succ, Z.pow_succ_r by lia. lia.
Qed.
Record writes (n : nat) (k k' : Z -> option Z) (a v : Z) : Prop := Writes
  { wr_other : forall b, ~ (a <= b < a + Z.of_nat n) -> k' b = k b;
    wr_mapped : forall b, k b <> None -> k' b <> None;
    wr_ld : ld n k' a = Some v;
    wr_bytes : bytes k -> bytes k' }.
Lemma st_spec : forall n k a v, (forall b, a <= b < a + Z.of_nat n -> k b <> None) -> 0 <= v < 256 ^ Z.of_nat n -> exists k', st n k a v = Some k' /\ writes n k k' a v.
Proof.
  induction n as [|n IH]; intros k a v H V.
  - exists k. split; [reflexivity|]. constructor; auto. cbn in *. f_equal. lia.
  - cbn [st]. destruct (k a) as [x|] eqn:E; [|exfalso; apply (H a); [lia|auto]]. rewrite Nat2Z.inj_succ, Z.pow_succ_r in V by lia.
    set (k1 := fun b => if b =? a then Some (v mod 256) else k b).
    destruct (IH k1 (a + 1) (v / 256)) as (k' & S1 & [W1 W2 W3 W4]).
    + intros b B. unfold k1. destruct (Z.eqb_spec b a); [lia|]. apply H. lia.
    + split; [apply Z.div_pos; lia|apply Z.div_lt_upper_bound; lia].
    + exists k'. split; [exact S1|]. constructor.
      * intros b B. rewrite W1 by lia. unfold k1. destruct (Z.eqb_spec b a); [lia|auto].
      * intros b B. apply W2. unfold k1. destruct (b =? a); [discriminate|auto].
      * cbn [ld]. rewrite W1 by lia. unfold k1. rewrite Z.eqb_refl, W3. f_equal. pose proof (Z.div_mod v 256). lia.
      * intros B. apply W4. intros b y. unfold k1. destruct (b =? a); [intros J; inversion J; subst; apply Z.mod_pos_bound; lia|apply B].
Qed.
Lemma ea_id : forall x, 0 <= x < 2^64 -> wrap64 x = x.
Proof. intros. apply Z.mod_small. auto. Qed.
Definition unchanged (k k' : Z -> option Z) (P : Z -> Prop) : Prop := forall b, ~ P b -> k' b = k b.

(** A frame on a stack holds a context. *)
Record frame (k : Z -> option Z) (sp : Z) (c : ctx) : Prop := Frame
  { fr_mxcsr : ld 4 k sp = Some (k_mxcsr c); fr_fcw : ld 2 k (sp + 4) = Some (k_fcw c);
    fr_r12 : ld 8 k (sp + 0x8) = Some (k_r12 c); fr_r13 : ld 8 k (sp + 0x10) = Some (k_r13 c);
    fr_r14 : ld 8 k (sp + 0x18) = Some (k_r14 c); fr_r15 : ld 8 k (sp + 0x20) = Some (k_r15 c);
    fr_rbx : ld 8 k (sp + 0x28) = Some (k_rbx c); fr_rbp : ld 8 k (sp + 0x30) = Some (k_rbp c);
    fr_rip : ld 8 k (sp + 0x38) = Some (k_rip c); fr_rsp : k_rsp c = sp + 0x40 }.
Lemma frame_ext : forall k k' sp c, (forall b, sp <= b < sp + 0x40 -> k' b = k b) -> frame k sp c -> frame k' sp c.
Proof. intros k k' sp c E []. constructor; auto; (erewrite ld_ext; [eassumption|]); cbn [Z.of_nat Pos.of_succ_nat Pos.succ]; intros; apply E; lia. Qed.
Lemma frame_eq : forall k sp c c', frame k sp c -> frame k sp c' -> c = c'.
Proof. intros k sp [] [] [] []. cbn in *. congruence. Qed.

(** ** The first half of the switch *)
Definition save_code : list instr := firstn 10 switch_code.
Definition load_code : list instr := skipn 10 switch_code.
Fixpoint go (c : list instr) (m : mach) : option mach :=
  match c with [] => Some m | i :: c => do '(out, m) <- step1 i m; if (out : bool) then None else go c m end.
Lemma exec_app : forall c d m m', go c m = Some m' -> exec (c ++ d) m = exec d m'.
Proof.
  induction c as [|i c IH]; intros d m m' H; [inversion H; auto|]. cbn [go app exec] in *. destruct (step1 i m) as [[[] m1]|]; try discriminate. auto.
Qed.
Lemma go_store : forall s off b c G mx fc k p a v, G s = v -> G b + off = a -> 0 <= a < 2^64 -> word_ok v -> (forall x, a <= x < a + 8 -> k x <> None) ->
  exists k', writes 8 k k' a v /\ go (Store s off b :: c) (Mach G mx fc k p) = go c (Mach G mx fc k' p).
Proof.
  intros s off b c G mx fc k p a v <- <- A V M. destruct (st_spec 8 k (G b + off) (G s)) as (k' & E & W); [exact M|exact V|]. exists k'. split; [auto|].
  cbn [go step1 mem g]. unfold ea. cbn [g]. rewrite ea_id, E by auto. reflexivity.
Qed.
Lemma go_mxcsr : forall off b c G mx fc k p a, G b + off = a -> 0 <= a < 2^64 -> 0 <= mx < 2^32 -> (forall x, a <= x < a + 4 -> k x <> None) ->
  exists k', writes 4 k k' a mx /\ go (Stmxcsr off b :: c) (Mach G mx fc k p) = go c (Mach G mx fc k' p).
Proof.
  intros off b c G mx fc k p a <- A V M. destruct (st_spec 4 k (G b + off) mx) as (k' & E & W); [exact M|exact V|]. exists k'. split; [auto|].
  cbn [go step1 mem g mxcsr]. unfold ea. cbn [g]. rewrite ea_id, E by auto. reflexivity.
Qed.
Lemma go_fcw : forall off b c G mx fc k p a, G b + off = a -> 0 <= a < 2^64 -> 0 <= fc < 2^16 -> (forall x, a <= x < a + 2 -> k x <> None) ->
  exists k', writes 2 k k' a fc /\ go (Fnstcw off b :: c) (Mach G mx fc k p) = go c (Mach G mx fc k' p).
Proof.
  intros off b c G mx fc k p a <- A V M. destruct (st_spec 2 k (G b + off) fc) as (k' & E & W); [exact M|exact V|]. exists k'. split; [auto|].
  cbn [go step1 mem g fcw]. unfold ea. cbn [g]. rewrite ea_id, E by auto. reflexivity.
Qed.
Ltac room := intros; repeat match goal with W : writes _ ?k ?k' _ _ |- ?k' _ <> None => apply (wr_mapped _ _ _ _ _ W) end.
(** What was read before a write elsewhere. *)
Ltac other := repeat match goal with W : writes ?n ?k ?k' ?a ?v |- ?k' _ = _ => rewrite (wr_other n k k' a v W) by (cbn [Z.of_nat Pos.of_succ_nat Pos.succ]; lia) end.
Lemma save_ok : forall m ret, mach_ok m -> 0x38 <= g m RSP -> g m RSP + 8 <= 2^64 -> 0 <= g m RDI -> g m RDI + 16 <= 2^64 ->
  (forall b, g m RSP - 0x38 <= b < g m RSP -> mem m b <> None) -> (forall b, g m RDI + 8 <= b < g m RDI + 16 -> mem m b <> None) ->
  g m RDI + 16 <= g m RSP - 0x38 \/ g m RSP + 8 <= g m RDI + 8 -> ld 8 (mem m) (g m RSP) = Some ret ->
  exists k, go save_code m = Some (Mach (fun x => if same_reg x RSP then g m RSP - 0x38 else g m x) (mxcsr m) (fcw m) k (pc m)) /\
    frame k (g m RSP - 0x38) (return_ctx m ret) /\ ld 8 k (g m RDI + 8) = Some (g m RSP - 0x38) /\ bytes k /\
    (forall b, mem m b <> None -> k b <> None) /\ unchanged (mem m) k (fun b => g m RSP - 0x38 <= b < g m RSP \/ g m RDI + 8 <= b < g m RDI + 16).
Proof.
  intros m ret (OG & OM & OF & OB) R1 R2 D1 D2 MS MD DJ RT. unfold save_code, switch_code. cbn [firstn go step1]. cbn iota. unfold set_reg.
  replace (ea m (-0x38) RSP) with (g m RSP - 0x38) by (unfold ea; rewrite ea_id by lia; lia).
  set (G := fun x => if same_reg x RSP then g m RSP - 0x38 else g m x). set (sp := g m RSP - 0x38) in *.
  assert (GS : G RSP = sp) by reflexivity. assert (GD : G RDI = g m RDI) by reflexivity.
  assert (GW : word_ok sp) by (unfold word_ok, sp; lia).
  assert (SPE : g m RSP = sp + 0x38) by (unfold sp; lia).
  destruct (go_mxcsr 0 RSP (skipn 2 save_code) G (mxcsr m) (fcw m) (mem m) (pc m) sp) as (k1 & W1 & E1); [lia|lia|auto|room; apply MS; lia|].
  destruct (go_fcw 4 RSP (skipn 3 save_code) G (mxcsr m) (fcw m) k1 (pc m) (sp + 4)) as (k2 & W2 & E2); [lia|lia|auto|room; apply MS; lia|].
  destruct (go_store R12 8 RSP (skipn 4 save_code) G (mxcsr m) (fcw m) k2 (pc m) (sp + 8) (g m R12)) as (k3 & W3 & E3); [reflexivity|lia|lia|apply OG|room; apply MS; lia|].
  destruct (go_store R13 0x10 RSP (skipn 5 save_code) G (mxcsr m) (fcw m) k3 (pc m) (sp + 0x10) (g m R13)) as (k4 & W4 & E4); [reflexivity|lia|lia|apply OG|room; apply MS; lia|].
  destruct (go_store R14 0x18 RSP (skipn 6 save_code) G (mxcsr m) (fcw m) k4 (pc m) (sp + 0x18) (g m R14)) as (k5 & W5 & E5); [reflexivity|lia|lia|apply OG|room; apply MS; lia|].
  destruct (go_store R15 0x20 RSP (skipn 7 save_code) G (mxcsr m) (fcw m) k5 (pc m) (sp + 0x20) (g m R15)) as (k6 & W6 & E6); [reflexivity|lia|lia|apply OG|room; apply MS; lia|].
  destruct (go_store RBX 0x28 RSP (skipn 8 save_code) G (mxcsr m) (fcw m) k6 (pc m) (sp + 0x28) (g m RBX)) as (k7 & W7 & E7); [reflexivity|lia|lia|apply OG|room; apply MS; lia|].
  destruct (go_store RBP 0x30 RSP (skipn 9 save_code) G (mxcsr m) (fcw m) k7 (pc m) (sp + 0x30) (g m RBP)) as (k8 & W8 & E8); [reflexivity|lia|lia|apply OG|room; apply MS; lia|].
  destruct (go_store RSP 8 RDI [] G (mxcsr m) (fcw m) k8 (pc m) (g m RDI + 8) sp) as (k9 & W9 & E9); [reflexivity|lia|lia|auto|room; apply MD; lia|].
  exists k9. split; [|split; [|split; [|split; [|split]]]].
  - change (go (Stmxcsr 0 RSP :: skipn 2 save_code) (Mach G (mxcsr m) (fcw m) (mem m) (pc m)) = Some (Mach G (mxcsr m) (fcw m) k9 (pc m))).
    rewrite E1. change (skipn 2 save_code) with (Fnstcw 4 RSP :: skipn 3 save_code). rewrite E2. change (skipn 3 save_code) with (Store R12 8 RSP :: skipn 4 save_code). rewrite E3.
    change (skipn 4 save_code) with (Store R13 0x10 RSP :: skipn 5 save_code). rewrite E4. change (skipn 5 save_code) with (Store R14 0x18 RSP :: skipn 6 save_code). rewrite E5.
    change (skipn 6 save_code) with (Store R15 0x20 RSP :: skipn 7 save_code). rewrite E6. change (skipn 7 save_code) with (Store RBX 0x28 RSP :: skipn 8 save_code). rewrite E7.
    change (skipn 8 save_code) with (Store RBP 0x30 RSP :: skipn 9 save_code). rewrite E8. change (skipn 9 save_code) with [Store RSP 8 RDI]. rewrite E9. reflexivity.
  - constructor; cbn [return_ctx ctx_with k_mxcsr k_fcw k_r12 k_r13 k_r14 k_r15 k_rbx k_rbp k_rip k_rsp].
    + rewrite <- (wr_ld _ _ _ _ _ W1). apply ld_ext. cbn [Z.of_nat Pos.of_succ_nat Pos.succ]. intros. other. reflexivity.
    + rewrite <- (wr_ld _ _ _ _ _ W2). apply ld_ext. cbn [Z.of_nat Pos.of_succ_nat Pos.succ]. intros. other. reflexivity.
    + rewrite <- (wr_ld _ _ _ _ _ W3). apply ld_ext. cbn [Z.of_nat Pos.of_succ_nat Pos.succ]. intros. other. reflexivity.
    + rewrite <- (wr_ld _ _ _ _ _ W4). apply ld_ext. cbn [Z.of_nat Pos.of_succ_nat Pos.succ]. intros. other. reflexivity.
    + rewrite <- (wr_ld _ _ _ _ _ W5). apply ld_ext. cbn [Z.of_nat Pos.of_succ_nat Pos.succ]. intros. other. reflexivity.
    + rewrite <- (wr_ld _ _ _ _ _ W6). apply ld_ext. cbn [Z.of_nat Pos.of_succ_nat Pos.succ]. intros. other. reflexivity.
    + rewrite <- (wr_ld _ _ _ _ _ W7). apply ld_ext. cbn [Z.of_nat Pos.of_succ_nat Pos.succ]. intros. other. reflexivity.
    + rewrite <- (wr_ld _ _ _ _ _ W8). apply ld_ext. cbn [Z.of_nat Pos.of_succ_nat Pos.succ]. intros. other. reflexivity.
    + rewrite <- RT, SPE. apply ld_ext. cbn [Z.of_nat Pos.of_succ_nat Pos.succ]. intros. other. reflexivity.
    + lia.
  - exact (wr_ld _ _ _ _ _ W9).
  - do 9 (match goal with W : writes _ ?k ?k' _ _ |- bytes ?k' => apply (wr_bytes _ _ _ _ _ W) end). exact OB.
  - room. assumption.
  - intros b NB. other. reflexivity.
Qed.
(** ** The second half *)
Lemma exec_load : forall off b d c G mx fc k p a v, G b + off = a -> 0 <= a < 2^64 -> ld 8 k a = Some v ->
  exec (Load off b d :: c) (Mach G mx fc k p) = exec c (Mach (fun x => if same_reg x d then v else G x) mx fc k p).
Proof. intros off b d c G mx fc k p a v <- A E. cbn [exec step1 mem]. unfold ea. cbn [g]. rewrite ea_id, E by auto. reflexivity. Qed.
Lemma exec_ldmxcsr : forall off b c G mx fc k p a v, G b + off = a -> 0 <= a < 2^64 -> ld 4 k a = Some v ->
  exec (Ldmxcsr off b :: c) (Mach G mx fc k p) = exec c (Mach G v fc k p).
Proof. intros off b c G mx fc k p a v <- A E. cbn [exec step1 mem]. unfold ea. cbn [g]. rewrite ea_id, E by auto. reflexivity. Qed.
Lemma exec_fldcw : forall off b c G mx fc k p a v, G b + off = a -> 0 <= a < 2^64 -> ld 2 k a = Some v ->
  exec (Fldcw off b :: c) (Mach G mx fc k p) = exec c (Mach G mx v k p).
Proof. intros off b c G mx fc k p a v <- A E. cbn [exec step1 mem]. unfold ea. cbn [g]. rewrite ea_id, E by auto. reflexivity. Qed.
Lemma exec_store : forall s off b c G mx fc k p a v, G s = v -> G b + off = a -> 0 <= a < 2^64 -> word_ok v -> (forall x, a <= x < a + 8 -> k x <> None) ->
  exists k', writes 8 k k' a v /\ exec (Store s off b :: c) (Mach G mx fc k p) = exec c (Mach G mx fc k' p).
Proof.
  intros s off b c G mx fc k p a v <- <- A V M. destruct (st_spec 8 k (G b + off) (G s)) as (k' & E & W); [exact M|exact V|]. exists k'. split; [auto|].
  cbn [exec step1 mem g]. unfold ea. cbn [g]. rewrite ea_id, E by auto. reflexivity.
Qed.
Lemma load_ok : forall m sp c, mach_ok m -> 0 <= g m RSI -> g m RSI + 88 <= 2^64 -> ld 8 (mem m) (g m RSI + 8) = Some sp -> 0 <= sp -> sp + 0x40 < 2^64 -> frame (mem m) sp c ->
  (forall b, g m RSI + 64 <= b < g m RSI + 88 -> mem m b <> None) ->
  exists m', exec load_code m = Some m' /\ ctx_of m' = c /\
    ld 8 (mem m') (g m RSI + 64) = Some (g m RDX) /\ ld 8 (mem m') (g m RSI + 72) = Some (g m RCX) /\ ld 8 (mem m') (g m RSI + 80) = Some (g m R8) /\ bytes (mem m') /\
    (forall b, mem m b <> None -> mem m' b <> None) /\ unchanged (mem m) (mem m') (fun b => g m RSI + 64 <= b < g m RSI + 88).
Proof.
  intros [G mx fc k p] sp c (OG & OM & OF & OB) N1 N2 P S1 S2 [F1 F2 F3 F4 F5 F6 F7 F8 F9 F10] MP. cbn [g mem mxcsr fcw pc] in *.
  unfold load_code, switch_code. cbn [skipn].
  erewrite exec_load; [|reflexivity|unfold fiber_stack_ptr; lia|exact P].
  erewrite exec_load; [|cbn [same_reg reg_no Z.eqb Pos.eqb]; reflexivity|lia|exact F9].
  erewrite exec_ldmxcsr; [|cbn [same_reg reg_no Z.eqb Pos.eqb]; reflexivity|lia|rewrite Z.add_0_r; exact F1].
  erewrite exec_fldcw; [|cbn [same_reg reg_no Z.eqb Pos.eqb]; reflexivity|lia|exact F2].
  erewrite exec_load; [|cbn [same_reg reg_no Z.eqb Pos.eqb]; reflexivity|lia|exact F3].
  erewrite exec_load; [|cbn [same_reg reg_no Z.eqb Pos.eqb]; reflexivity|lia|exact F4].
  erewrite exec_load; [|cbn [same_reg reg_no Z.eqb Pos.eqb]; reflexivity|lia|exact F5].
  erewrite exec_load; [|cbn [same_reg reg_no Z.eqb Pos.eqb]; reflexivity|lia|exact F6].
  erewrite exec_load; [|cbn [same_reg reg_no Z.eqb Pos.eqb]; reflexivity|lia|exact F7].
  erewrite exec_load; [|cbn [same_reg reg_no Z.eqb Pos.eqb]; reflexivity|lia|exact F8].
  match goal with |- context[exec _ (Mach ?X _ _ _ _)] => set (H := X) end.
  assert (HS : H RSI = G RSI) by reflexivity.
  unfold fiber_restore_discipline_id, fiber_restore_reason_code, fiber_restore_param.
  match goal with |- context[exec (Store RDX 64 RSI :: ?r) ?mm] => destruct (exec_store RDX 64 RSI r H (mxcsr mm) (fcw mm) k p (G RSI + 64) (G RDX)) as (k1 & W1 & E1); [reflexivity|lia|lia|apply OG|room; apply MP; lia|] end.
  cbn [mxcsr fcw] in E1. rewrite E1. clear E1.
  match goal with |- context[exec (Store RCX 72 RSI :: ?r) ?mm] => destruct (exec_store RCX 72 RSI r H (mxcsr mm) (fcw mm) k1 p (G RSI + 72) (G RCX)) as (k2 & W2 & E2); [reflexivity|lia|lia|apply OG|room; apply MP; lia|] end.
  cbn [mxcsr fcw] in E2. rewrite E2. clear E2.
  match goal with |- context[exec (Store R8 80 RSI :: ?r) ?mm] => destruct (exec_store R8 80 RSI r H (mxcsr mm) (fcw mm) k2 p (G RSI + 80) (G R8)) as (k3 & W3 & E3); [reflexivity|lia|lia|apply OG|room; apply MP; lia|] end.
  cbn [mxcsr fcw] in E3. rewrite E3. clear E3.
  eexists. split; [reflexivity|]. unfold set_reg, ea. cbn [set_pc mem].
  split; [|split; [|split; [|split; [|split; [|split]]]]].
  - destruct c. cbn in F1, F2, F3, F4, F5, F6, F7, F8, F9, F10 |- *. unfold ctx_of, ctx_with. cbn. unfold H. cbn. rewrite ea_id by lia. subst. reflexivity.
  - rewrite <- (wr_ld _ _ _ _ _ W1). apply ld_ext. cbn [Z.of_nat Pos.of_succ_nat Pos.succ]. intros. other. reflexivity.
  - rewrite <- (wr_ld _ _ _ _ _ W2). apply ld_ext. cbn [Z.of_nat Pos.of_succ_nat Pos.succ]. intros. other. reflexivity.
  - exact (wr_ld _ _ _ _ _ W3).
  - do 3 (match goal with W : writes _ ?k ?k' _ _ |- bytes ?k' => apply (wr_bytes _ _ _ _ _ W) end). exact OB.
  - room. assumption.
  - intros b NB. other. reflexivity.
Qed.
(** ** Making a fiber *)
Lemma align : forall x, 0 <= x < 2^64 -> Z.land x (wrap64 (-16)) = x - x mod 16.
Proof.
  intros x X. replace (Z.land x (wrap64 (-16))) with (Z.ldiff x (Z.ones 4)).
  - rewrite Z.ldiff_ones_r by lia. rewrite Z.shiftr_div_pow2, Z.shiftl_mul_pow2 by lia. change (2^4) with 16. pose proof (Z.div_mod x 16). lia.
  - apply Z.bits_inj'. intros n N. rewrite Z.ldiff_spec, Z.land_spec. destruct (Z.testbit x n) eqn:B; [|reflexivity].
    assert (n < 64). { destruct (Z.lt_ge_cases n 64) as [|G]; auto. rewrite Z.bits_above_log2 in B; [discriminate|lia|].
      destruct (Z.eq_dec x 0) as [->|NZ]; [cbn; lia|]. apply Z.log2_lt_pow2; [lia|]. apply Z.lt_le_trans with (2^64); [lia|]. apply Z.pow_le_mono_r; lia. }
    change (wrap64 (-16)) with (Z.ldiff (Z.ones 64) (Z.ones 4)). rewrite Z.ldiff_spec, (Z.ones_spec_low 64) by lia. reflexivity.
Qed.
Lemma exec_and : forall i d c G mx fc k p v, Z.land (G d) (wrap64 i) = v -> exec (AndI i d :: c) (Mach G mx fc k p) = exec c (Mach (fun x => if same_reg x d then v else G x) mx fc k p).
Proof. intros. subst. reflexivity. Qed.
Lemma exec_lea : forall off b d c G mx fc k p v, wrap64 (G b + off) = v -> exec (Lea off b d :: c) (Mach G mx fc k p) = exec c (Mach (fun x => if same_reg x d then v else G x) mx fc k p).
Proof. intros. subst. reflexivity. Qed.
Lemma exec_leal : forall l d c G mx fc k p, exec (LeaL l d :: c) (Mach G mx fc k p) = exec c (Mach (fun x => if same_reg x d then l else G x) mx fc k p).
Proof. reflexivity. Qed.
Ltac stored W := match goal with |- context[exec (Store ?s ?off ?b :: ?r) (Mach ?G ?mx ?fc ?k ?p)] =>
  let k' := fresh "k" in let E := fresh in destruct (exec_store s off b r G mx fc k p (G b + off) (G s)) as (k' & W & E); [reflexivity|reflexivity| | | |rewrite E; clear E] end.
Lemma exec_mxcsr : forall off b c G mx fc k p a, G b + off = a -> 0 <= a < 2^64 -> 0 <= mx < 2^32 -> (forall x, a <= x < a + 4 -> k x <> None) ->
  exists k', writes 4 k k' a mx /\ exec (Stmxcsr off b :: c) (Mach G mx fc k p) = exec c (Mach G mx fc k' p).
Proof.
  intros off b c G mx fc k p a <- A V M. destruct (st_spec 4 k (G b + off) mx) as (k' & E & W); [exact M|exact V|]. exists k'. split; [auto|].
  cbn [exec step1 mem g mxcsr]. unfold ea. cbn [g]. rewrite ea_id, E by auto. reflexivity.
Qed.
Lemma exec_fcw : forall off b c G mx fc k p a, G b + off = a -> 0 <= a < 2^64 -> 0 <= fc < 2^16 -> (forall x, a <= x < a + 2 -> k x <> None) ->
  exists k', writes 2 k k' a fc /\ exec (Fnstcw off b :: c) (Mach G mx fc k p) = exec c (Mach G mx fc k' p).
Proof.
  intros off b c G mx fc k p a <- A V M. destruct (st_spec 2 k (G b + off) fc) as (k' & E & W); [exact M|exact V|]. exists k'. split; [auto|].
  cbn [exec step1 mem g fcw]. unfold ea. cbn [g]. rewrite ea_id, E by auto. reflexivity.
Qed.
Lemma make_ok : forall tramp fin m top ret, mach_ok m -> word_ok tramp -> word_ok fin -> 0 <= g m RDI -> g m RDI + 16 <= 2^64 -> g m RSP + 8 < 2^64 ->
  ld 8 (mem m) (g m RDI + 8) = Some top -> 0x50 <= top -> top < 2^64 ->
  let sp := top - top mod 16 - 0x40 in
  (forall b, sp <= b < sp + 0x40 -> mem m b <> None) -> (forall b, g m RDI + 8 <= b < g m RDI + 16 -> mem m b <> None) ->
  g m RDI + 16 <= sp \/ sp + 0x40 <= g m RDI + 8 -> ld 8 (mem m) (g m RSP) = Some ret ->
  g m RSP + 8 <= sp \/ sp + 0x40 <= g m RSP -> g m RSP + 8 <= g m RDI + 8 \/ g m RDI + 16 <= g m RSP ->
  exists m' c, exec (make_code tramp fin) m = Some m' /\ ctx_of m' = return_ctx m ret /\
    frame (mem m') sp c /\ k_rip c = tramp /\ k_rbx c = g m RDX /\ k_rbp c = fin /\ k_r14 c = g m RSI /\ k_r15 c = g m RDI /\ k_mxcsr c = mxcsr m /\ k_fcw c = fcw m /\
    ld 8 (mem m') (g m RDI + 8) = Some sp /\ bytes (mem m') /\
    (forall b, mem m b <> None -> mem m' b <> None) /\ unchanged (mem m) (mem m') (fun b => sp <= b < sp + 0x40 \/ g m RDI + 8 <= b < g m RDI + 16).
Proof.
  intros tramp fin [G mx fc k p] top ret (OG & OM & OF & OB) OT OI D1 D2 R2 P T1 T2 sp MS MD DJ RT DR DR2. cbn [g mem mxcsr fcw pc] in *.
  assert (TM : 0 <= top mod 16 < 16) by (apply Z.mod_pos_bound; lia).
  unfold make_code. erewrite exec_load; [|reflexivity|unfold fiber_stack_ptr; lia|exact P].
  erewrite exec_and; [|cbn [same_reg reg_no Z.eqb Pos.eqb]; apply align; lia].
  erewrite exec_lea; [|cbn [same_reg reg_no Z.eqb Pos.eqb]; rewrite ea_id by lia; instantiate (1 := sp); unfold sp; lia].
  match goal with |- context[Mach ?X _ _ _ _] => set (H := X) end.
  assert (HA : H RAX = sp) by reflexivity. assert (HD : H RDI = G RDI) by reflexivity.
  assert (SB : 0 <= sp /\ sp + 0x40 < 2^64) by (unfold sp; lia). clearbody sp.
  stored W1; rewrite ?HA, ?HD; [lia|apply OG|room; apply MS; lia|].
  stored W2; rewrite ?HA, ?HD; [lia|apply OG|room; apply MS; lia|].
  stored W3; rewrite ?HA, ?HD; [lia|apply OG|room; apply MS; lia|].
  match goal with |- context[exec (Stmxcsr 0 RAX :: ?r) (Mach _ _ _ ?kk _)] => destruct (exec_mxcsr 0 RAX r H mx fc kk p sp) as (k4 & W4 & E4); [lia|lia|auto|room; apply MS; lia|rewrite E4; clear E4] end.
  match goal with |- context[exec (Fnstcw 4 RAX :: ?r) (Mach _ _ _ ?kk _)] => destruct (exec_fcw 4 RAX r H mx fc kk p (sp + 4)) as (k5 & W5 & E5); [lia|lia|auto|room; apply MS; lia|rewrite E5; clear E5] end.
  rewrite exec_leal. match goal with |- context[Mach ?X _ _ _ _] => set (H1 := X) end.
  assert (HA1 : H1 RAX = sp) by reflexivity. assert (HD1 : H1 RDI = G RDI) by reflexivity. assert (HC1 : H1 RCX = tramp) by reflexivity.
  stored W6; rewrite ?HA1, ?HD1, ?HC1; [lia|auto|room; apply MS; lia|].
  rewrite exec_leal. match goal with |- context[Mach ?X _ _ _ _] => set (H2 := X) end.
  assert (HA2 : H2 RAX = sp) by reflexivity. assert (HD2 : H2 RDI = G RDI) by reflexivity. assert (HC2 : H2 RCX = fin) by reflexivity.
  stored W7; rewrite ?HA2, ?HD2, ?HC2; [lia|auto|room; apply MS; lia|].
  unfold fiber_stack_ptr. stored W8; rewrite ?HA2, ?HD2; [lia|unfold word_ok; lia|room; apply MD; lia|].
  rewrite HA, HD, HA1, HC1, HA2, HC2, HD2 in *. change (H RDX) with (G RDX) in *. change (H RSI) with (G RSI) in *.
  match goal with |- context[exec [Ret] (Mach _ _ _ ?kk _)] => set (K := kk) in * end.
  assert (RT2 : ld 8 K (G RSP) = Some ret) by (rewrite <- RT; apply ld_ext; cbn [Z.of_nat Pos.of_succ_nat Pos.succ]; intros; unfold K; other; reflexivity).
  assert (BK : bytes K) by (unfold K; do 8 (match goal with W : writes _ ?k ?k' _ _ |- bytes ?k' => apply (wr_bytes _ _ _ _ _ W) end); exact OB).
  assert (MK : forall b, k b <> None -> K b <> None) by (unfold K; room; assumption).
  destruct (ld_some 8 K (sp + 8)) as (r12 & L12 & _); [exact BK|cbn [Z.of_nat Pos.of_succ_nat Pos.succ]; intros; apply MK, MS; lia|].
  destruct (ld_some 8 K (sp + 0x10)) as (r13 & L13 & _); [exact BK|cbn [Z.of_nat Pos.of_succ_nat Pos.succ]; intros; apply MK, MS; lia|].
  exists (Mach (fun x => if same_reg x RSP then G RSP + 8 else H2 x) mx fc K ret), (Ctx (G RDX) fin r12 r13 (G RSI) (G RDI) mx fc (sp + 0x40) tramp).
  cbn [mem k_rip k_rbx k_rbp k_r14 k_r15 k_mxcsr k_fcw].
  split; [|split; [|split; [|do 7 (split; [reflexivity|]); split; [|split; [|split]]]]].
  - cbn [exec step1 mem g]. change (H2 RSP) with (G RSP). rewrite RT2. cbn iota. unfold set_reg, set_pc, ea. cbn [g mem mxcsr fcw pc]. change (H2 RSP) with (G RSP). rewrite ea_id by (pose proof (OG RSP); unfold word_ok in *; lia). reflexivity.
  - reflexivity.
  - constructor; cbn [k_rip k_rbx k_rbp k_r12 k_r13 k_r14 k_r15 k_mxcsr k_fcw k_rsp]; auto.
    + rewrite <- (wr_ld _ _ _ _ _ W4). apply ld_ext. cbn [Z.of_nat Pos.of_succ_nat Pos.succ]. intros. unfold K. other. reflexivity.
    + rewrite <- (wr_ld _ _ _ _ _ W5). apply ld_ext. cbn [Z.of_nat Pos.of_succ_nat Pos.succ]. intros. unfold K. other. reflexivity.
    + rewrite <- (wr_ld _ _ _ _ _ W3). apply ld_ext. cbn [Z.of_nat Pos.of_succ_nat Pos.succ]. intros. unfold K. other. reflexivity.
    + rewrite <- (wr_ld _ _ _ _ _ W2). apply ld_ext. cbn [Z.of_nat Pos.of_succ_nat Pos.succ]. intros. unfold K. other. reflexivity.
    + rewrite <- (wr_ld _ _ _ _ _ W1). apply ld_ext. cbn [Z.of_nat Pos.of_succ_nat Pos.succ]. intros. unfold K. other. reflexivity.
    + rewrite <- (wr_ld _ _ _ _ _ W7). apply ld_ext. cbn [Z.of_nat Pos.of_succ_nat Pos.succ]. intros. unfold K. other. reflexivity.
    + rewrite <- (wr_ld _ _ _ _ _ W6). apply ld_ext. cbn [Z.of_nat Pos.of_succ_nat Pos.succ]. intros. unfold K. other. reflexivity.
  - exact (wr_ld _ _ _ _ _ W8).
  - exact BK.
  - exact MK.
  - intros b NB. unfold K. other. reflexivity.
Qed.

(** ** Histories *)
Definition saved (L : layout) (m : mach) (f : Z) (P : ctx -> Prop) : Prop :=
  fib L f /\ mapped L f m /\ exists sp c, ld 8 (mem m) (f + 8) = Some sp /\ lo L f <= sp /\ sp + 0x40 <= hi L f /\ frame (mem m) sp c /\ P c.
Definition inv (L : layout) (c : Z) (m : mach) (s : waiting) : Prop := forall f P, s f = Some P -> f <> c -> saved L m f P.
Lemma disj : forall a a' l l', (forall b, a <= b < a' -> ~ (l <= b < l')) -> a < a' -> l < l' -> a' <= l \/ l' <= a.
Proof.
  intros a a' l l' H A B. destruct (Z.le_gt_cases a' l) as [|C1]; [auto|]. destruct (Z.le_gt_cases l' a) as [|C2]; [auto|].
  exfalso. apply (H (Z.max a l)); lia.
Qed.
Lemma saved_ext : forall L m m' f P, saved L m f P -> (forall b, stack L f b -> mem m' b = mem m b) -> (forall b, f + 8 <= b < f + 16 -> mem m' b = mem m b) ->
  (forall b, stack L f b \/ struct f b -> mem m b <> None -> mem m' b <> None) -> saved L m' f P.
Proof.
  intros L m m' f P (F & M & sp & c & E1 & E2 & E3 & E4 & E5) S1 S2 S3. split; [auto|]. split; [intros b B; apply S3; auto|].
  exists sp, c. split; [rewrite <- E1; apply ld_ext; cbn [Z.of_nat Pos.of_succ_nat Pos.succ]; intros; apply S2; lia|]. do 2 (split; [auto|]). split; [|auto].
  eapply frame_ext; [|exact E4]. intros b B. apply S1. unfold stack. lia.
Qed.
Lemma run_inv : forall L c m m' s, inv L c m s -> may_run L c m m' -> inv L c m' s.
Proof. intros L c m m' s I [R1 R2 R3 R4] f P E N. pose proof (I f P E N) as SV. pose proof SV as [F _]. eapply saved_ext; [exact SV| | |]; eauto. intros b B. apply (R3 f); auto. unfold fiber_stack_ptr. lia. Qed.
Lemma struct_vs : forall L f f', separated L -> fib L f -> fib L f' -> lo L f' < hi L f' -> f + FIBER_SIZE <= lo L f' \/ hi L f' <= f.
Proof. intros L f f' S1 F F' E. apply disj; [|unfold FIBER_SIZE; lia|auto]. intros b. apply (sp_both _ S1 f f' b F F'). Qed.
Lemma stack_vs : forall L f f', separated L -> fib L f -> fib L f' -> f <> f' -> lo L f < hi L f -> lo L f' < hi L f' -> hi L f <= lo L f' \/ hi L f' <= lo L f.
Proof. intros L f f' S1 F F' N E E'. apply disj; auto. intros b. apply (sp_stacks _ S1 f f' b F F' N). Qed.
Lemma structs_vs : forall L f f', separated L -> fib L f -> fib L f' -> f <> f' -> f + FIBER_SIZE <= f' \/ f' + FIBER_SIZE <= f.
Proof. intros L f f' S1 F F' N. apply disj; unfold FIBER_SIZE in *; [|lia|lia]. intros b. apply (sp_structs _ S1 f f' b F F' N). Qed.

Lemma switch_ok : forall L c m s mc ret next, separated L -> inv L c m s -> switches L c m s mc ret next ->
  exists m', exec switch_code mc = Some m' /\ (exists P, put c (eq (return_ctx mc ret)) s next = Some P /\ P (ctx_of m')) /\
    word m' (next + fiber_restore_discipline_id) = Some (g mc RDX) /\ word m' (next + fiber_restore_reason_code) = Some (g mc RCX) /\ word m' (next + fiber_restore_param) = Some (g mc R8) /\
    (forall b, ~ (g mc RSP - 0x38 <= b < g mc RSP) -> ~ (c + 8 <= b < c + 16) -> ~ (next + 64 <= b < next + 88) -> mem m' b = mem mc b) /\
    (forall b, mem mc b <> None -> mem m' b <> None) /\ bytes (mem m') /\
    inv L next m' (put c (eq (return_ctx mc ret)) s).
Proof.
  intros L c m s mc ret next SP I (MR & (FC & MC & R1 & R2 & RW) & DC & DN & FN & NX).
  pose proof (run_inv _ _ _ _ _ I MR) as I1. clear I. pose proof (mr_ok _ _ _ _ MR) as OK.
  destruct (sp_struct _ SP c FC) as [C1 C2]. destruct (sp_stack _ SP c FC) as [C3 C4]. destruct (sp_struct _ SP next FN) as [N1 N2]. destruct (sp_stack _ SP next FN) as [N3 N4].
  pose proof (struct_vs L c c SP FC FC ltac:(lia)) as DCC. pose proof (struct_vs L next c SP FN FC ltac:(lia)) as DNC. unfold FIBER_SIZE in *.
  destruct (save_ok mc ret OK ltac:(lia) ltac:(lia) ltac:(lia) ltac:(lia)) as (k & G1 & FR & P1 & B1 & M1 & U1); rewrite ?DC in *.
  { intros b B. apply MC. left. unfold stack. lia. }
  { intros b B. apply MC. right. unfold struct, FIBER_SIZE. lia. }
  { lia. }
  { exact RW. }
  set (m1 := Mach (fun x => if same_reg x RSP then g mc RSP - 0x38 else g mc x) (mxcsr mc) (fcw mc) k (pc mc)) in *.
  assert (OK1 : mach_ok m1). { destruct OK as (O1 & O2 & O3 & O4). split; [|do 2 (split; [auto|]); exact B1]. intros r. cbn [m1 g]. destruct (same_reg r RSP); [unfold word_ok; lia|auto]. }
  assert (SV : forall f P, put c (eq (return_ctx mc ret)) s f = Some P -> saved L m1 f P).
  { intros f P. unfold put. destruct (Z.eqb_spec f c) as [->|NE]; intros E.
    - inversion E; subst P. split; [auto|]. split; [intros b B; apply M1, MC, B|]. exists (g mc RSP - 0x38), (return_ctx mc ret).
      split; [exact P1|]. split; [lia|]. split; [lia|]. split; [exact FR|reflexivity].
    - pose proof (I1 f P E NE) as SVF. pose proof SVF as SVF'. destruct SVF' as (FF & MF & spf & _ & _ & LF & HF & _). eapply saved_ext; [exact SVF| | |].
      + intros b B. apply U1. pose proof (struct_vs L c f SP FC FF ltac:(unfold stack in *; lia)). pose proof (stack_vs L c f SP FC FF ltac:(auto) ltac:(lia) ltac:(unfold stack in *; lia)). unfold stack, FIBER_SIZE in *. lia.
      + intros b B. apply U1. pose proof (structs_vs L c f SP FC FF ltac:(auto)). pose proof (struct_vs L f c SP FF FC ltac:(lia)). unfold FIBER_SIZE in *. lia.
      + intros b _ B. apply M1. exact B. }
  assert (PN : exists P, put c (eq (return_ctx mc ret)) s next = Some P).
  { unfold put. destruct (Z.eqb_spec next c); [eauto|]. destruct NX as [|NX]; [contradiction|]. destruct (s next); [eauto|contradiction]. }
  destruct PN as [P PN]. destruct (SV next P PN) as (_ & MN & sp & k0 & L1 & L2 & L3 & L4 & L5).
  destruct (load_ok m1 sp k0 OK1) as (m' & X & CX & Q1 & Q2 & Q3 & BM & MM & U2); try (change (g m1 RSI) with (g mc RSI); rewrite ?DN in *).
  { lia. } { lia. } { exact L1. } { lia. } { lia. } { exact L4. }
  { intros b B. apply MN. right. unfold struct, FIBER_SIZE. lia. }
  change (g m1 RSI) with (g mc RSI) in *. change (g m1 RDX) with (g mc RDX) in *. change (g m1 RCX) with (g mc RCX) in *. change (g m1 R8) with (g mc R8) in *. rewrite DN in *.
  exists m'. split; [|split; [|split; [|split; [|split; [|split; [|split; [|split; [exact BM|]]]]]]]].
  - change switch_code with (save_code ++ load_code). rewrite (exec_app _ _ _ _ G1). exact X.
  - exists P. split; [exact PN|]. rewrite CX. exact L5.
  - exact Q1.
  - exact Q2.
  - exact Q3.
  - intros b B2 B3 B4. rewrite U2 by lia. apply U1. lia.
  - intros b B. apply MM, M1, B.
  - intros f Pf E NE. pose proof (SV f Pf E) as SVF. pose proof SVF as SVF'. destruct SVF' as (FF & MF & spf & _ & _ & LF & HF & _). eapply saved_ext; [exact SVF| | |].
    + intros b B. apply U2. pose proof (struct_vs L next f SP FN FF ltac:(unfold stack in *; lia)). unfold stack, FIBER_SIZE in *. lia.
    + intros b B. apply U2. pose proof (structs_vs L next f SP FN FF ltac:(auto)). unfold FIBER_SIZE in *. lia.
    + intros b _ B. apply MM, B.
Qed.
Lemma make_step : forall L tramp fin c m s mc ret f, separated L -> word_ok tramp -> word_ok fin -> inv L c m s -> makes L c m mc ret f ->
  exists m' sp, exec (make_code tramp fin) mc = Some m' /\ ctx_of m' = return_ctx mc ret /\ lo L f <= sp /\ sp + 0x40 <= hi L f /\ 
    (forall b, ~ (sp <= b < sp + 0x40) -> ~ (f + 8 <= b < f + 16) -> mem m' b = mem mc b) /\ (forall b, mem mc b <> None -> mem m' b <> None) /\ bytes (mem m') /\
    inv L c m' (put f (fresh L tramp fin f (g mc RSI) (g mc RDX) mc) s).
Proof.
  intros L tramp fin c m s mc ret f SP OT OI I (MR & (FC & MC & R1 & R2 & RW) & DF & FF & NE & MF & top & WT & T1 & T2).
  pose proof (run_inv _ _ _ _ _ I MR) as I1. clear I. pose proof (mr_ok _ _ _ _ MR) as OK.
  destruct (sp_struct _ SP c FC) as [C1 C2]. destruct (sp_stack _ SP c FC) as [C3 C4]. destruct (sp_struct _ SP f FF) as [N1 N2]. destruct (sp_stack _ SP f FF) as [N3 N4].
  pose proof (struct_vs L f f SP FF FF ltac:(lia)) as DFF. pose proof (struct_vs L f c SP FF FC ltac:(lia)) as DFC. pose proof (stack_vs L c f SP FC FF ltac:(auto) ltac:(lia) ltac:(lia)) as DCF. unfold FIBER_SIZE in *.
  assert (TM : 0 <= top mod 16 < 16) by (apply Z.mod_pos_bound; lia).
  pose proof (make_ok tramp fin mc top ret OK OT OI) as MO. cbv zeta in MO. rewrite DF in MO. set (sp := top - top mod 16 - 0x40) in *.
  assert (SPB : lo L f <= sp /\ sp + 0x40 <= hi L f) by (unfold sp; lia).
  assert (SPA : (sp + 0x40) mod 16 = 0). { unfold sp. replace (top - top mod 16 - 64 + 64) with (16 * (top / 16)) by (pose proof (Z.div_mod top 16); lia). rewrite Z.mul_comm. apply Z.mod_mul. lia. }
  assert (SPL : sp < top) by (unfold sp; lia). clearbody sp.
  destruct MO as (m' & k & X & CX & FR & K1 & K2 & K3 & K4 & K5 & K6 & K7 & P1 & BM & MM & U).
  { lia. } { lia. } { lia. } { exact WT. } { lia. } { lia. }
  { intros b B. apply MF. left. unfold stack. lia. }
  { intros b B. apply MF. right. unfold struct, FIBER_SIZE. lia. }
  { lia. } { exact RW. } { lia. } { lia. }
  exists m', sp. split; [exact X|]. split; [exact CX|]. do 2 (split; [lia|]). split; [|split].
  - intros b B1 B2. apply U. lia.
  - exact MM.
  - split; [exact BM|]. intros x P. unfold put. destruct (Z.eqb_spec x f) as [->|NX]; intros E NC.
    + inversion E; subst P. split; [auto|]. split; [intros b B; apply MM, MF, B|]. exists sp, k. split; [exact P1|]. do 2 (split; [lia|]). split; [exact FR|].
      unfold fresh. rewrite (fr_rsp _ _ _ FR). repeat (split; [assumption|]). lia.
    + pose proof (I1 x P E NC) as SV. pose proof SV as SV'. destruct SV' as (FX & MX & spx & _ & _ & LX & HX & _). eapply saved_ext; [exact SV| | |].
      * intros b B. apply U. pose proof (struct_vs L f x SP FF FX ltac:(unfold stack in *; lia)). pose proof (stack_vs L f x SP FF FX ltac:(auto) ltac:(lia) ltac:(unfold stack in *; lia)). unfold stack, FIBER_SIZE in *. lia.
      * intros b B. apply U. pose proof (structs_vs L f x SP FF FX ltac:(auto)). pose proof (struct_vs L x f SP FX FF ltac:(lia)). unfold FIBER_SIZE in *. lia.
      * intros b _ B. apply MM, B.
Qed.
