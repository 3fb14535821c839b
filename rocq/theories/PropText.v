(** C74: commands sent as lines of text are read and split into the same words. *)
From Verif Require Import Base Status StringModel StringSpec CodecModel CodecSpec MemModel AsyncModel AsyncSpec BrModel BrSpec BrProofs BrInst EndSpec EndProofs TextSpec TextProofs.

(** ** Reading *)
(** A buffered reader of any socket that fails only at the end of its stream, in whatever pieces the bytes come: as long as
    every buffer has a byte to spare, each line is read whole, and the words in it are those of the command. *)
Theorem C74_read_partial : forall S (o : sock_ops S) inv rem cs us b l, smooth_sock o inv rem -> br_ok inv b -> q_err b = false ->
  Forall proper cs -> Forall2 roomy cs us -> pending rem b = lines cs ++ l ->
  exists outs b', br_run o b (map (fun u => BLine (fst u) (snd u)) us) = Some (outs, b') /\
    Forall2 (fun cu o => understood (fst cu) (fst (snd cu)) o) (combine cs us) outs /\ pending rem b' = l.
Proof.
  intros S o inv rem cs us b l SM B Q P R E. destruct (lines_read cs us l P R) as (X & Y & outs & O & U).
  destruct (lines_smooth S o inv rem SM us b B) as (b' & K & K'); try (rewrite E; auto).
  - congruence.
  - clear - R. induction R as [|c u cs us [_ H] R IH]; constructor; auto.
  - rewrite E in K, K'. exists outs, b'. rewrite K, O. split; auto. split; auto. congruence.
Qed.
(** ** From one end to the other *)
(** The sender is an asynchronous socket, however often it has to wait; the receiver a buffered reader just created on a plain
    descriptor, and what has not been read as a command is still there. *)
Theorem C74_async_partial : forall fw w cs us al rc junk k b more, ready fw w -> Forall proper cs -> Forall2 roomy cs us ->
  exists w', send (async_ops fw) cs (Some w) = Some (STATUS_SUCCESS, Some w') /\ ready fw w' /\ k_in (a_k w') = k_in (a_k w) /\
    (Forall (fun e => exists m, e = KGive m) (k_rs k) -> k_in k = sent w w' ++ more -> ct_obj (br_create al rc junk k) = Some b ->
     exists outs b', br_run fd_ops b (map (fun u => BLine (fst u) (snd u)) us) = Some (outs, b') /\
       Forall2 (fun cu o => understood (fst cu) (fst (snd cu)) o) (combine cs us) outs /\ buffered b' ++ k_in (q_w b') = more).
Proof.
  intros fw w cs us al rc junk k b more RD P R.
  destruct (send_complete _ (async_ops fw) (async_W fw (k_in (a_k w))) cs (Some w) (k_out (a_k w)) (async_complete_writer fw _)) as (s & E & (w' & -> & RD' & O & I)).
  { exists w. auto. }
  exists w'. split; auto. split; auto. split; auto. rewrite (sent_app _ _ _ O). intros G K C.
  destruct (created _ al rc junk k gives k_in b G C) as (B & Pe & Q & _). rewrite K in Pe.
  destruct (C74_read_partial _ fd_ops gives k_in cs us b more fd_smooth B Q P R Pe) as (outs & b' & A1 & A2 & A3). exists outs, b'. auto.
Qed.
(** The sender is a plain descriptor: lines, unlike values (C70), survive short writes. *)
Theorem C74_plain_partial : forall w cs us al rc junk k b more, takes w -> Forall proper cs -> Forall2 roomy cs us ->
  exists w' d, send fd_ops cs w = Some (STATUS_SUCCESS, w') /\ takes w' /\ k_out w' = k_out w ++ d /\ k_in w' = k_in w /\
    (Forall (fun e => exists m, e = KGive m) (k_rs k) -> k_in k = d ++ more -> ct_obj (br_create al rc junk k) = Some b ->
     exists outs b', br_run fd_ops b (map (fun u => BLine (fst u) (snd u)) us) = Some (outs, b') /\
       Forall2 (fun cu o => understood (fst cu) (fst (snd cu)) o) (combine cs us) outs /\ buffered b' ++ k_in (q_w b') = more).
Proof.
  intros w cs us al rc junk k b more T P R. destruct (send_fd cs w T) as (w' & E & T' & O & I & _).
  exists w', (lines cs). split; auto. split; auto. split; auto. split; auto. intros G K C.
  destruct (created _ al rc junk k gives k_in b G C) as (B & Pe & Q & _). rewrite K in Pe.
  destruct (C74_read_partial _ fd_ops gives k_in cs us b more fd_smooth B Q P R Pe) as (outs & b' & A1 & A2 & A3). exists outs, b'. auto.
Qed.
(** A command of two words with blanks on all sides, an empty one, and one of one word. *)
Definition three : list command :=
  [Cmd [([32; 9], [103; 101; 116]); ([32; 32], [120])] [32]; Cmd [] []; Cmd [([], [113])] [13]].
Definition three_bufs : list (list Z * nat) := [(repeat 7 12, 12%nat); (repeat 7 3, 2%nat); (repeat 7 5, 4%nat)].
Example C74_proper_example : Forall proper three /\ Forall2 roomy three three_bufs /\ map words_of three = [[[103; 101; 116]; [120]]; []; [[113]]].
Proof.
  split; [|split; [|reflexivity]].
  - repeat constructor; cbn; unfold ws, is_char; try lia; discriminate.
  - repeat constructor; cbn; lia.
Qed.
Example C74_sent_example :
  match send fd_ops three (Kern [] [] [9] [KGive 2; KGive 0; KGive 4]) with
  | Some (e, w) => e = 0 /\ k_out w = [9; 32; 9; 103; 101; 116; 32; 32; 120; 32; 10; 10; 113; 13; 10]
  | None => False
  end.
Proof. vm_compute. auto. Qed.

(** ** What the byte to spare is for *)
(** A command that fills its buffer exactly, its NUL included, is read like any other if its newline has come with it.  If the newline
    comes later the command is reported as truncated although all of it was stored, the newline stays behind, the next read
    finds an empty command, and every later command is one read late. *)
Definition fits : command := Cmd [([], [103; 111])] [].
Definition stop : command := Cmd [([], [113])] [].
Theorem C74_exact_fit_refuted :
  Forall proper [fits; stop] /\
  let go ks := match ct_obj (br_create (fun _ => 0) (fun _ => 0) (fun _ => 0) (Kern (lines [fits; stop]) ks [] [])) with
               | Some b => option_map fst (br_run fd_ops b [BLine (repeat 7 3) 3; BLine (repeat 7 3) 3])
               | None => None
               end in
  go [] = Some [OLine STATUS_SUCCESS 3 [103; 111; 0]; OLine STATUS_SUCCESS 2 [113; 0; 7]] /\
  go [KGive 1] = Some [OLine ERROR_PSOCK_BR_READ_LINE_TRUNCATED 2 [103; 111; 0]; OLine STATUS_SUCCESS 1 [0; 7; 7]].
Proof.
  split; [|split; vm_compute; reflexivity]. repeat constructor; cbn; unfold ws, is_char; try lia; discriminate.
Qed.

Print Assumptions C74_read_partial.
Print Assumptions C74_async_partial.
Print Assumptions C74_plain_partial.
Print Assumptions C74_exact_fit_refuted.
