(** C46: status codes identify one error each. *)
From Verif Require Import Base Status.

Lemma land_hi_lo_disjoint_aux : forall a b n, 0 <= n -> 0 <= b < 2^n ->
  Z.lor (Z.shiftl a n) b = a * 2^n + b.
Proof.
  intros a b n Hn Hb.
  assert (D: Z.land (Z.shiftl a n) b = 0).
  { apply Z.bits_inj'. intros k Hk.
    rewrite Z.land_spec, Z.bits_0.
    destruct (Z.lt_ge_cases k n).
    - rewrite Z.shiftl_spec_low by lia. reflexivity.
    - replace (Z.testbit b k) with false; [apply andb_false_r|].
      symmetry. destruct (Z.eq_dec b 0) as [->|Hb0]; [apply Z.bits_0|].
      apply Z.bits_above_log2; [lia|].
      apply Z.log2_lt_pow2; [lia|].
      eapply Z.lt_le_trans; [apply Hb|]. apply Z.pow_le_mono_r; lia. }
  rewrite <- Z.lxor_lor by exact D. rewrite <- Z.add_nocarry_lxor by exact D.
  rewrite Z.shiftl_mul_pow2 by lia. reflexivity.
Qed.

(** Closed form of an error code. *)
Lemma status_code_value : forall c r, 0 <= c < 65536 -> 0 <= r < 32768 ->
  STATUS_CODE 1 c r = - 2^31 + c * 2^15 + r.
Proof.
  intros c r Hc Hr. unfold STATUS_CODE.
  change (1 =? 1) with true. cbv iota.
  change (Z.land (-1) (Z.lnot 2147483647)) with (Z.shiftl (-1) 31).
  change 65535 with (Z.ones 16). change 32767 with (Z.ones 15).
  rewrite !Z.land_ones by lia. rewrite Z.shiftl_0_r.
  rewrite !Z.mod_small by (cbn; lia).
  replace (Z.shiftl (-1) 31) with (Z.shiftl (-65536) 15) by reflexivity.
  rewrite <- Z.shiftl_lor.
  rewrite land_hi_lo_disjoint_aux by lia.
  replace (Z.lor (-65536) c) with (-65536 + c).
  - lia.
  - change (-65536) with (Z.shiftl (-1) 16) at 2.
    rewrite land_hi_lo_disjoint_aux by lia. lia.
Qed.

Lemma component_make_range : forall f s, 0 <= COMPONENT_MAKE f s < 65536.
Proof.
  intros. unfold COMPONENT_MAKE.
  assert (H: Z.lor (Z.land (Z.shiftl f 8) 65280) (Z.land s 255)
             = Z.land (Z.lor (Z.land (Z.shiftl f 8) 65280) (Z.land s 255)) (Z.ones 16)).
  { rewrite Z.land_lor_distr_l, <- !Z.land_assoc.
    change (Z.land 65280 (Z.ones 16)) with 65280. change (Z.land 255 (Z.ones 16)) with 255. reflexivity. }
  rewrite H, Z.land_ones by lia.
  change 65536 with (2^16). apply Z.mod_pos_bound. lia.
Qed.

(** Injectivity and sign, for every component and every reason. *)
Lemma status_code_injective : forall c1 r1 c2 r2,
  0 <= c1 < 65536 -> 0 <= r1 < 32768 -> 0 <= c2 < 65536 -> 0 <= r2 < 32768 ->
  STATUS_CODE 1 c1 r1 = STATUS_CODE 1 c2 r2 -> c1 = c2 /\ r1 = r2.
Proof. intros. rewrite !status_code_value in H3 by assumption. lia. Qed.

Lemma status_code_error_range : forall c r,
  0 <= c < 65536 -> 0 <= r < 32768 -> - 2^31 <= STATUS_CODE 1 c r < 0.
Proof. intros. rewrite status_code_value by assumption. lia. Qed.

Fixpoint nodupb (l : list Z) : bool :=
  match l with [] => true | x :: t => negb (existsb (Z.eqb x) t) && nodupb t end.

Lemma nodupb_sound : forall l, nodupb l = true -> NoDup l.
Proof.
  induction l as [|x l IH]; simpl; intros H; [constructor|].
  apply andb_prop in H as [H1 H2]. constructor; [|auto].
  intros Hin. apply negb_true_iff in H1.
  assert (existsb (Z.eqb x) l = true) by (apply existsb_exists; exists x; split; [auto|apply Z.eqb_refl]).
  congruence.
Qed.

Lemma nodup_all_errors : NoDup all_errors.
Proof. apply nodupb_sound. vm_compute. reflexivity. Qed.

Lemma all_errors_negative : Forall (fun e => - 2^31 <= e < 0) all_errors.
Proof.
  apply Forall_forall. intros x Hx.
  assert (H: forallb (fun e => (- 2^31 <=? e) && (e <? 0)) all_errors = true) by (vm_compute; reflexivity).
  rewrite forallb_forall in H. apply H in Hx. lia.
Qed.

Lemma status_code_error_range' : forall c r,
  0 <= c < 65536 -> 0 <= r < 32768 ->
  - 2^31 <= STATUS_CODE 1 c r < 0 /\ STATUS_CODE 1 c r <> STATUS_SUCCESS.
Proof.
  intros. pose proof (status_code_error_range c r H H0). unfold STATUS_SUCCESS. lia.
Qed.

Lemma component_make_value : forall f s, 0 <= f < 256 -> 0 <= s < 256 ->
  COMPONENT_MAKE f s = f * 256 + s.
Proof.
  intros f s Hf Hs. unfold COMPONENT_MAKE.
  change 255 with (Z.ones 8) at 1. rewrite Z.land_ones by lia.
  rewrite (Z.mod_small s) by (cbn; lia).
  replace (Z.land (Z.shiftl f 8) 65280) with (Z.shiftl f 8).
  - rewrite land_hi_lo_disjoint_aux by (cbn; lia). reflexivity.
  - change 65280 with (Z.shiftl 255 8). rewrite <- Z.shiftl_land.
    change 255 with (Z.ones 8). rewrite Z.land_ones by lia. rewrite Z.mod_small by (cbn; lia). reflexivity.
Qed.

Lemma component_make_injective : forall f1 s1 f2 s2,
  0 <= f1 < 256 -> 0 <= s1 < 256 -> 0 <= f2 < 256 -> 0 <= s2 < 256 ->
  COMPONENT_MAKE f1 s1 = COMPONENT_MAKE f2 s2 -> f1 = f2 /\ s1 = s2.
Proof. intros. rewrite !component_make_value in H3 by assumption. lia. Qed.
