From Verif Require Import Base Status AllocModel AllocSpec.

Lemma wrap64_small : forall x, 0 <= x < 2^64 -> wrap64 x = x.
Proof. intros. unfold wrap64. apply Z.mod_small. auto. Qed.

Lemma create_spec : forall region rsize,
  (rsize < 40 -> bump_create region rsize = (ERROR_GENERAL_OUT_OF_MEMORY, None)) /\
  (40 <= rsize -> exists b, bump_create region rsize = (STATUS_SUCCESS, Some b) /\
     b = Bump true region 40 rsize).
Proof.
  intros. unfold bump_create, SIZEOF_BUMP. destruct (Z.ltb_spec rsize 40); split; intros; try lia; eauto.
Qed.

Lemma align_up_cases : forall x, 0 <= x ->
  align_up x = if x mod 16 =? 0 then x else x + (16 - x mod 16).
Proof.
  intros. unfold align_up. pose proof (Z.div_mod x 16 ltac:(lia)). pose proof (Z.mod_pos_bound x 16 ltac:(lia)).
  destruct (Z.eqb_spec (x mod 16) 0) as [E|E].
  - replace ((x + 15) / 16) with (x / 16); [lia|]. apply Z.div_unique with 15; lia.
  - replace ((x + 15) / 16) with (x / 16 + 1); [lia|]. apply Z.div_unique with (x mod 16 - 1); lia.
Qed.

Lemma align_up_bound : forall x, 0 <= x -> x <= align_up x < x + 16 /\ align_up x mod 16 = 0.
Proof.
  intros. pose proof (Z.mod_pos_bound x 16 ltac:(lia)). rewrite align_up_cases by auto.
  destruct (Z.eqb_spec (x mod 16) 0) as [E|E]; [lia|]. split; [lia|].
  pose proof (Z.div_mod x 16 ltac:(lia)).
  replace (x + (16 - x mod 16)) with ((x / 16 + 1) * 16) by lia. apply Z.mod_mul. lia.
Qed.

(** State invariant. *)
Definition bwf (region rsize : Z) (b : bump) : Prop :=
  bm_vtable b = true /\ bm_region b = region /\ bm_max b = rsize /\ 40 <= bm_offset b <= rsize.

(** The address of the next block, computed without wrapping. *)
Definition next_addr (b : bump) : Z := align_up (bm_region b + bm_offset b).

Lemma allocate_exact : forall region rsize b n, region_ok region rsize -> rsize + 16 <= 2^64 -> bwf region rsize b -> 0 <= n < 2^64 ->
  let a := next_addr b in
  (a + n < region + rsize ->
     bump_allocate b n = (STATUS_SUCCESS, Some a, Bump true region (a + n - region) rsize)) /\
  (region + rsize <= a + n -> a + n < region + 2^64 ->
     bump_allocate b n = (ERROR_GENERAL_OUT_OF_MEMORY, None, b)).
Proof.
  intros region rsize b n (R1 & R2 & R3) Rs (V & Rg & Mx & Of) Hn a.
  assert (A : a = align_up (region + bm_offset b)) by (unfold a, next_addr; rewrite Rg; reflexivity).
  destruct (align_up_bound (region + bm_offset b) ltac:(lia)) as [B1 B2]. rewrite <- A in B1, B2.
  rewrite align_up_cases in A by lia.
  unfold bump_allocate. rewrite Rg, Mx, V.
  destruct (Z.eq_dec (region + bm_offset b) (2^64)) as [W|W].
  { (* region ends at the top of the address space and is full *)
    assert (bm_offset b = rsize) by lia.
    replace (wrap64 (region + bm_offset b)) with 0 by (rewrite W; reflexivity).
    rewrite W in A. change ((2^64) mod 16 =? 0) with true in A. cbn iota in A.
    change (0 mod 16 =? 0) with true. cbn iota. split; intros; [lia|].
    rewrite wrap64_small by lia. destruct (Z.leb_spec rsize (bm_offset b + n)); [reflexivity|lia]. }
  rewrite (wrap64_small (region + bm_offset b)) by lia. set (m := if _ =? 0 then bm_offset b else _).
  assert (M : m = a - region).
  { unfold m. rewrite A. destruct ((region + bm_offset b) mod 16 =? 0) eqn:E; [lia|].
    apply Z.eqb_neq in E. pose proof (Z.mod_pos_bound (region + bm_offset b) 16 ltac:(lia)).
    rewrite wrap64_small; lia. }
  rewrite M. clearbody m. split; intros.
  - rewrite !wrap64_small by lia. destruct (Z.leb_spec rsize (a - region + n)); [lia|].
    f_equal; [f_equal; f_equal; lia|f_equal; lia].
  - rewrite wrap64_small by lia. destruct (Z.leb_spec rsize (a - region + n)); [reflexivity|lia].
Qed.

(** Everything handed out so far lies below the current offset. *)
Definition good_blocks (region rsize : Z) (b : bump) (acc : list block) : Prop :=
  Forall (fun k => aligned16 k /\ inside region rsize 40 k /\ 0 <= snd k /\ fst k + snd k <= region + bm_offset b) acc /\
  pairwise_disjoint acc.

Lemma reset_control : forall region rsize b, bwf region rsize b -> bwf region rsize (Bump true region 40 rsize).
Proof. intros region rsize b (V & R & M & O). repeat split; cbn; lia. Qed.

Lemma good_history : forall region rsize, region_ok region rsize -> rsize + 16 <= 2^64 ->
  forall os b acc, bwf region rsize b -> requests (fits rsize) os -> good_blocks region rsize b acc ->
  let (rs, b') := bump_history b os in
  bwf region rsize b' /\ good_blocks region rsize b' (handed_out acc rs).
Proof.
  intros region rsize RO Rs. induction os as [|o os IH]; intros b acc Wf Rq [G1 G2].
  - cbn. split; [auto|]. split; auto.
  - inversion Rq as [|? ? Ho Hos]; subst.
    destruct (bump_call b o) as [[e p] b1] eqn:E. cbn [bump_history]. rewrite E.
    assert (V : bm_vtable b = true) by apply Wf.
    unfold bump_call in E. rewrite V in E. destruct o as [n|q|q n|k].
    + destruct Ho as [Hn Hfit]. pose proof RO as (R1 & R2 & R3).
      destruct (allocate_exact region rsize b n RO Rs Wf ltac:(lia)) as [A1 A2].
      destruct Wf as (_ & Rg & Mx & Of).
      destruct (align_up_bound (bm_region b + bm_offset b) ltac:(lia)) as [B1 B2]. fold (next_addr b) in B1, B2.
      destruct (Z.lt_ge_cases (next_addr b + n) (region + rsize)) as [L|L].
      * rewrite (A1 L) in E. inversion E; subst e p b1. clear E.
        specialize (IH (Bump true region (next_addr b + n - region) rsize) ((next_addr b, n) :: acc)).
        destruct (bump_history _ os) as [rs b']. cbn [handed_out]. change (STATUS_SUCCESS =? STATUS_SUCCESS) with true.
        apply IH; auto.
        { repeat split; cbn; lia. }
        split.
        { apply Forall_cons.
          - unfold aligned16, inside. cbn [fst snd bm_offset]. repeat split; auto; lia.
          - eapply Forall_impl; [|exact G1]. cbn. intros [a z] (K1 & K2 & K3 & K4). cbn in *. repeat split; auto; try apply K2; lia. }
        { constructor; auto. eapply Forall_impl; [|exact G1]. intros [a z] (K1 & K2 & K3 & K4).
          unfold disjoint. cbn in *. right. lia. }
      * rewrite (A2 L ltac:(lia)) in E. inversion E; subst e p b1.
        specialize (IH b acc). destruct (bump_history b os) as [rs b']. cbn [handed_out]. apply IH; auto.
        { repeat split; auto; lia. } { split; auto. }
    + inversion E; subst. specialize (IH b1 acc). destruct (bump_history b1 os). cbn [handed_out]. apply IH; auto. split; auto.
    + inversion E; subst. specialize (IH b1 acc). destruct (bump_history b1 os). cbn [handed_out]. apply IH; auto. split; auto.
    + unfold bump_control, CONTROL_BUMP_RESET, SIZEOF_BUMP in E. destruct (Z.eqb_spec k 32) as [->|Nk].
      * inversion E; subst e p b1. destruct Wf as (V' & Rg & Mx & Of).
        specialize (IH (Bump (bm_vtable b) (bm_region b) 40 (bm_max b)) []).
        destruct (bump_history _ os) as [rs b']. cbn [handed_out]. change (STATUS_SUCCESS =? STATUS_SUCCESS) with true.
        apply IH; auto. { repeat split; cbn; auto; lia. } { split; constructor. }
      * inversion E; subst e p b1. specialize (IH b acc). destruct (bump_history b os) as [rs b'].
        assert (H : forall A (x y : A), match k with 32 => x | _ => y end = y).
        { intros. destruct k as [|q|q]; auto. do 6 (destruct q; auto). congruence. }
        cbn [handed_out]. rewrite H. apply IH; auto. split; auto.
Qed.

Lemma aligned_inside_disjoint : forall region rsize os b, region_ok region rsize -> rsize + 16 <= 2^64 ->
  bump_create region rsize = (STATUS_SUCCESS, Some b) -> requests (fits rsize) os ->
  let l := handed_out [] (fst (bump_history b os)) in
  Forall aligned16 l /\ Forall (inside region rsize 40) l /\ pairwise_disjoint l.
Proof.
  intros region rsize os b RO Rs C Rq.
  assert (Wf : bwf region rsize b).
  { destruct (create_spec region rsize) as [C1 C2]. destruct (Z.lt_ge_cases rsize 40) as [L|L].
    - rewrite C1 in C by auto. discriminate.
    - destruct (C2 L) as (b' & E & ->). rewrite E in C. inversion C; subst. repeat split; cbn; lia. }
  pose proof (good_history region rsize RO Rs os b [] Wf Rq) as H.
  destruct (bump_history b os) as [rs b']. destruct H as [_ [G1 G2]]. { split; constructor. }
  cbn. split; [|split; [|exact G2]]; eapply Forall_impl; try exact G1; intros a K; apply K.
Qed.

(** C22 *)
Lemma state_after : forall region rsize os b, region_ok region rsize -> rsize + 16 <= 2^64 ->
  bump_create region rsize = (STATUS_SUCCESS, Some b) -> requests (fits rsize) os ->
  bwf region rsize (snd (bump_history b os)).
Proof.
  intros region rsize os b RO Rs C Rq.
  assert (Wf : bwf region rsize b).
  { destruct (create_spec region rsize) as [C1 C2]. destruct (Z.lt_ge_cases rsize 40) as [L|L].
    - rewrite C1 in C by auto. discriminate.
    - destruct (C2 L) as (b' & E & ->). rewrite E in C. inversion C; subst. repeat split; cbn; lia. }
  pose proof (good_history region rsize RO Rs os b [] Wf Rq) as H.
  destruct (bump_history b os) as [rs b']. apply H. split; constructor.
Qed.

Lemma history_app : forall os1 os2 b,
  bump_history b (os1 ++ os2) =
  (fst (bump_history b os1) ++ fst (bump_history (snd (bump_history b os1)) os2),
   snd (bump_history (snd (bump_history b os1)) os2)).
Proof.
  induction os1 as [|o os1 IH]; intros; cbn [app bump_history].
  - cbn. destruct (bump_history b os2). reflexivity.
  - destruct (bump_call b o) as [[e p] b1]. rewrite IH. destruct (bump_history b1 os1) as [r1 b2]. cbn.
    destruct (bump_history b2 os2). reflexivity.
Qed.

Lemma free_end_history : forall region rsize, region_ok region rsize -> rsize + 16 <= 2^64 ->
  forall os b acc, bwf region rsize b -> requests (fits rsize) os ->
  region + bm_offset b = free_from region acc ->
  let (rs, b') := bump_history b os in
  region + bm_offset b' = free_from region (handed_out acc rs).
Proof.
  intros region rsize RO Rs. induction os as [|o os IH]; intros b acc Wf Rq G; [exact G|].
  inversion Rq as [|? ? Ho Hos]; subst.
  destruct (bump_call b o) as [[e p] b1] eqn:E. cbn [bump_history]. rewrite E.
  assert (V : bm_vtable b = true) by apply Wf.
  unfold bump_call in E. rewrite V in E. destruct o as [n|q|q n|k].
  - destruct Ho as [Hn Hfit]. pose proof RO as (R1 & R2 & R3).
    destruct (allocate_exact region rsize b n RO Rs Wf ltac:(lia)) as [A1 A2].
    destruct Wf as (_ & Rg & Mx & Of).
    destruct (align_up_bound (bm_region b + bm_offset b) ltac:(lia)) as [B1 B2]. fold (next_addr b) in B1, B2.
    destruct (Z.lt_ge_cases (next_addr b + n) (region + rsize)) as [L|L].
    + rewrite (A1 L) in E. inversion E; subst e p b1. clear E.
      specialize (IH (Bump true region (next_addr b + n - region) rsize) ((next_addr b, n) :: acc)).
      destruct (bump_history _ os) as [rs b']. cbn [handed_out]. change (STATUS_SUCCESS =? STATUS_SUCCESS) with true.
      apply IH; auto. { repeat split; cbn; lia. } { cbn; lia. }
    + rewrite (A2 L ltac:(lia)) in E. inversion E; subst e p b1.
      specialize (IH b acc). destruct (bump_history b os) as [rs b']. cbn [handed_out]. apply IH; auto.
      repeat split; auto; lia.
  - inversion E; subst. specialize (IH b1 acc). destruct (bump_history b1 os). cbn [handed_out]. apply IH; auto.
  - inversion E; subst. specialize (IH b1 acc). destruct (bump_history b1 os). cbn [handed_out]. apply IH; auto.
  - unfold bump_control, CONTROL_BUMP_RESET, SIZEOF_BUMP in E. destruct (Z.eqb_spec k 32) as [->|Nk].
    + inversion E; subst e p b1. destruct Wf as (V' & Rg & Mx & Of).
      specialize (IH (Bump (bm_vtable b) (bm_region b) 40 (bm_max b)) []).
      destruct (bump_history _ os) as [rs b']. cbn [handed_out]. change (STATUS_SUCCESS =? STATUS_SUCCESS) with true.
      apply IH; auto. repeat split; cbn; auto; lia.
    + inversion E; subst e p b1. specialize (IH b acc). destruct (bump_history b os) as [rs b'].
      assert (H : forall A (x y : A), match k with 32 => x | _ => y end = y).
      { intros. destruct k as [|q|q]; auto. do 6 (destruct q; auto). congruence. }
      cbn [handed_out]. rewrite H. apply IH; auto.
Qed.


Lemma exact_failure : forall region rsize os b n, region_ok region rsize -> rsize + 16 <= 2^64 ->
  bump_create region rsize = (STATUS_SUCCESS, Some b) -> requests (fits rsize) os -> fits rsize n ->
  let (rs, b') := bump_history b os in
  let a := align_up (free_from region (handed_out [] rs)) in
  (a + n < region + rsize -> exists b2, bump_call b' (Allocate n) = (STATUS_SUCCESS, Some a, b2)) /\
  (region + rsize <= a + n -> bump_call b' (Allocate n) = (ERROR_GENERAL_OUT_OF_MEMORY, None, b')).
Proof.
  intros region rsize os b n RO Rs C Rq Fn.
  assert (Wf : bwf region rsize b).
  { destruct (create_spec region rsize) as [C1 C2]. destruct (Z.lt_ge_cases rsize 40) as [L|L].
    - rewrite C1 in C by auto. discriminate.
    - destruct (C2 L) as (b' & E & ->). rewrite E in C. inversion C; subst. repeat split; cbn; lia. }
  assert (O40 : region + bm_offset b = free_from region []).
  { unfold bump_create in C. destruct (_ <? _); inversion C. reflexivity. }
  pose proof (state_after region rsize os b RO Rs C Rq) as Wf'.
  pose proof (free_end_history region rsize RO Rs os b [] Wf Rq O40) as F.
  destruct (bump_history b os) as [rs b']. cbn in Wf'. cbv zeta.
  assert (A : align_up (free_from region (handed_out [] rs)) = next_addr b').
  { unfold next_addr. destruct Wf' as (_ & -> & _). f_equal.
    rewrite <- F. reflexivity. }
  destruct Fn as [Fn1 Fn2]. pose proof RO as (R1 & R2 & R3).
  assert (Hn : 0 <= n < 2^64) by lia.
  destruct (allocate_exact region rsize b' n RO Rs Wf' Hn) as [A1 A2].
  unfold bump_call. rewrite A. replace (bm_vtable b') with true by (symmetry; apply Wf').
  split; intros L; [rewrite A1 by auto; eauto|]. apply A2; auto.
  pose proof Wf' as (_ & Rg & _ & Of).
  destruct (align_up_bound (bm_region b' + bm_offset b')) as [B1 _]; [lia|].
  fold (next_addr b') in B1. lia.
Qed.

Lemma no_effect_ops : forall b, bm_vtable b = true ->
  (forall p, bump_call b (Reclaim p) = (STATUS_SUCCESS, None, b)) /\
  (forall p n, bump_call b (Reallocate p n) = (ERROR_GENERAL_REALLOCATION_NOT_SUPPORTED, None, b)) /\
  (forall k, k <> 32 -> bump_call b (Control k) = (ERROR_GENERAL_CONTROL_KEY_INVALID, None, b)).
Proof.
  intros b V. unfold bump_call. rewrite V. repeat split; auto.
  intros k Nk. unfold bump_control, CONTROL_BUMP_RESET. destruct (Z.eqb_spec k 32); [congruence|reflexivity].
Qed.

Lemma reset_fresh : forall region rsize os b, region_ok region rsize -> rsize + 16 <= 2^64 ->
  bump_create region rsize = (STATUS_SUCCESS, Some b) -> requests (fits rsize) os ->
  bump_call (snd (bump_history b os)) (Control 32) = (STATUS_SUCCESS, None, b).
Proof.
  intros region rsize os b RO Rs C Rq. pose proof (state_after region rsize os b RO Rs C Rq) as (V & Rg & Mx & Of).
  unfold bump_call, bump_control. rewrite V, Rg, Mx. unfold bump_create, SIZEOF_BUMP in *.
  destruct (_ <? _); inversion C; subst. reflexivity.
Qed.

Lemma released : forall b o, let (e, b') := bump_release b in e = STATUS_SUCCESS /\
  bump_call b' o = (ERROR_GENERAL_BAD_VTABLE, match o with Allocate _ => Some 0 | _ => None end, b').
Proof. intros. cbn. split; auto. destruct o; reflexivity. Qed.

(** ** malloc allocator *)

Lemma cget_none : forall h p, ~ In p (map fst h) <-> cget h p = None.
Proof.
  induction h as [|[q c] t IH]; cbn; intros; [tauto|].
  destruct (Z.eqb_spec p q) as [->|N]; [split; [tauto|discriminate]|].
  rewrite <- IH. split; intros H; [tauto|]. intros [K|K]; [congruence|auto].
Qed.

Lemma cdel_in : forall h p q, In q (map fst (cdel h p)) -> In q (map fst h).
Proof.
  induction h as [|[x c] t IH]; cbn; intros; [auto|]. destruct (p =? x); cbn in *; [auto|]. destruct H; eauto.
Qed.

Lemma cdel_nodup : forall h p, NoDup (map fst h) -> NoDup (map fst (cdel h p)).
Proof.
  induction h as [|[x c] t IH]; cbn; intros p H; [auto|]. inversion H; subst.
  destruct (p =? x); cbn; auto. constructor; auto. intro K. apply H2. eapply cdel_in; eauto.
Qed.

Lemma cget_cdel : forall h p q, NoDup (map fst h) -> cget (cdel h p) q = if q =? p then None else cget h q.
Proof.
  induction h as [|[x c] t IH]; cbn; intros p q H; [destruct (q =? p); auto|]. inversion H; subst.
  destruct (Z.eqb_spec p x) as [->|N].
  - destruct (Z.eqb_spec q x) as [->|M]; auto. apply cget_none. auto.
  - cbn. rewrite IH by auto. destruct (Z.eqb_spec q x) as [->|M]; auto.
    destruct (Z.eqb_spec x p); [congruence|auto].
Qed.

Lemma malloc_allocate_spec : forall w h n, cwf h ->
  (forall p junk, w = LOk p junk -> p <> 0 -> cget h p = None ->
     exists c h', malloc_allocate w h n = (STATUS_SUCCESS, p, h') /\ length c = n /\ cwf h' /\
       forall q, cget h' q = if q =? p then Some c else cget h q) /\
  (w = LFail -> malloc_allocate w h n = (ERROR_GENERAL_OUT_OF_MEMORY, 0, h)).
Proof.
  intros w h n [W1 W2]. split.
  - intros p junk -> Np Fr. exists (map junk (seq 0 n)). eexists. split; [reflexivity|].
    split; [rewrite map_length, seq_length; reflexivity|]. split; [|intros; reflexivity].
    split; cbn.
    + constructor; auto. apply cget_none; auto.
    + intros [H|H]; auto.
  - intros ->. reflexivity.
Qed.

Lemma malloc_reclaim_spec : forall h p, cwf h ->
  (forall c, cget h p = Some c -> exists h', malloc_reclaim h p = Some (STATUS_SUCCESS, h') /\ cwf h' /\
     forall q, cget h' q = if q =? p then None else cget h q) /\
  (p <> 0 -> cget h p = None -> malloc_reclaim h p = None).
Proof.
  intros h p [W1 W2]. unfold malloc_reclaim. split.
  - intros c G. destruct (Z.eqb_spec p 0) as [->|N].
    + apply cget_none in W2. congruence.
    + rewrite G. eexists. split; [reflexivity|]. split.
      * split; [apply cdel_nodup; auto|]. intro K. apply W2. eapply cdel_in; eauto.
      * intros. apply cget_cdel. auto.
  - intros N G. destruct (Z.eqb_spec p 0); [congruence|]. rewrite G. reflexivity.
Qed.

Lemma malloc_reallocate_spec : forall w h p c n, cwf h -> cget h p = Some c ->
  (forall q junk, w = LOk q junk -> q <> 0 -> (q = p \/ cget h q = None) ->
     exists c' h', malloc_reallocate w h p n = Some (STATUS_SUCCESS, q, h') /\ cwf h' /\
       length c' = n /\ firstn (Nat.min n (length c)) c' = firstn n c /\
       cget h' q = Some c' /\ (q <> p -> cget h' p = None) /\
       forall r, r <> p -> r <> q -> cget h' r = cget h r) /\
  (w = LFail -> malloc_reallocate w h p n = Some (ERROR_GENERAL_OUT_OF_MEMORY, p, h)) /\
  (w = LFreed -> exists h', malloc_reallocate w h p n = Some (ERROR_GENERAL_OUT_OF_MEMORY, p, h') /\ cget h' p = None).
Proof.
  intros w h p c n [W1 W2] G. assert (Np : p <> 0).
  { intros ->. apply cget_none in W2. congruence. }
  unfold malloc_reallocate. destruct (Z.eqb_spec p 0); [congruence|]. rewrite G. split; [|split].
  - intros q junk -> Nq Fr. exists (firstn n c ++ map junk (seq (length (firstn n c)) (n - length c))). eexists. split; [reflexivity|].
    assert (Nin : ~ In q (map fst (cdel h p))).
    { apply cget_none. rewrite cget_cdel by auto. destruct Fr as [->|Fr]; [rewrite Z.eqb_refl; auto|].
      rewrite Fr. destruct (q =? p); auto. }
    split; [split; cbn|]; [constructor; auto; apply cdel_nodup; auto| |].
    { intros [K|K]; [congruence|]. apply W2. eapply cdel_in; eauto. }
    split. { rewrite app_length, map_length, seq_length, firstn_length. lia. }
    split; [apply firstn_exact; rewrite firstn_length; reflexivity|].
    split; [cbn; rewrite Z.eqb_refl; reflexivity|]. split.
    + intros Nqp. cbn. destruct (Z.eqb_spec p q); [congruence|]. rewrite cget_cdel by auto. rewrite Z.eqb_refl. reflexivity.
    + intros r R1 R2. cbn. destruct (Z.eqb_spec r q); [congruence|]. rewrite cget_cdel by auto.
      destruct (Z.eqb_spec r p); [congruence|reflexivity].
  - intros ->. reflexivity.
  - intros ->. eexists. split; [reflexivity|]. rewrite cget_cdel by auto. rewrite Z.eqb_refl. reflexivity.
Qed.
