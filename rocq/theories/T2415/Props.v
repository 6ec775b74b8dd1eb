(** The tape control: C55 to C57 and C65 to C75. *)
From Verif Require Import T2415.Spec T2415.Proofs T2415.Proofs2 T2415.Proofs3 T2415.Proofs4 T2415.Proofs5 T2415.Proofs7.

(** Six nine-track drives with the same tape, ready. *)
Definition drive9 : tape := Tape (t_win new_drive) false TAP false false false false false FNone true false false 0 0 0 false 0.
Definition on_drive (f : list Z) (ring : bool) : tape := tape_online true (tape_attach drive9 f TAP ring true).
Definition six (f : list Z) (ring : bool) : list (option tape) := repeat (Some (on_drive f ring)) 6.
Definition let_go : act := Chan (out_tags false false false false false false false false false) 0 0.
Definition poll : act := Chan (out_tags true false false false false false false false false) 0 0.
Ltac by_vm := vm_compute; repeat split; reflexivity.

(** C55 fails always: a write command to a ready drive with a ring gets unit check, channel end and device end as initial
    status, with intervention required, and no data is taken; but four zero bytes, a tape mark, have been put over the tape. *)
Theorem C55_refuted : forall a pa s u t c k, between u t s -> 0 <= u < 6 -> with_parity (Z.lor (Z.land a 248) u) = Ok pa ->
  won t c k -> (t_fmt t = TAP \/ t_fmt t = E11) -> tape_ring t = true ->
  exists s' t', seen a s (begin_op pa 1) = Ok (s', [], [SNS_UNITCHK + SNS_CHNEND + SNS_DEVEND]) /\ d_sense0 s' = S_INTERV /\ d_pend s' = [] /\
    nth_error (d_tapes s') (Z.to_nat u) = Some (Some t') /\ bytes_on t' = overwrite c k [0; 0; 0; 0].
Proof.
  intros a pa s u t c k B U W WN TL RG. destruct (write_start_on (tape_selected true t) c k WN TL RG) as (t1 & E & BO & _).
  destruct (write_refused a pa s u t t1 S_INTERV B U W) as (s' & S1 & S2 & S3 & S4); [right; repeat split; assumption|].
  exists s', (tape_selected false t1). repeat (split; [assumption|]). exact BO.
Qed.
Print Assumptions C55_refuted.
Example C55_ex : between 2 (on_drive [1; 2; 3; 4; 5; 6] true) (init_dev (six [1; 2; 3; 4; 5; 6] true)) /\ won (on_drive [1; 2; 3; 4; 5; 6] true) [1; 2; 3; 4; 5; 6] 0 /\
  with_parity (Z.lor (Z.land 128 248) 2) = Ok 386 /\ overwrite [1; 2; 3; 4; 5; 6] 0 [0; 0; 0; 0] = [0; 0; 0; 0; 5; 6].
Proof.
  split; [repeat split; reflexivity|]. split; [|split; reflexivity].
  exact (attach_won drive9 [1; 2; 3; 4; 5; 6] TAP true (eq_refl (length (w_buf (t_win new_drive))))).
Qed.
(** What holds: without a ring the command is rejected and the tape is untouched. *)
Theorem C55_partial : forall a pa s u t, between u t s -> 0 <= u < 6 -> with_parity (Z.lor (Z.land a 248) u) = Ok pa -> tape_ring t = false ->
  exists s', seen a s (begin_op pa 1) = Ok (s', [], [SNS_UNITCHK + SNS_CHNEND + SNS_DEVEND]) /\ d_sense0 s' = S_CMDREJ /\
    nth_error (d_tapes s') (Z.to_nat u) = Some (Some (tape_selected false t)).
Proof.
  intros a pa s u t B U W RG. destruct (write_refused a pa s u t (tape_selected true t) S_CMDREJ B U W) as (s' & S1 & S2 & S3 & S4); [left; repeat split; assumption|].
  exists s'. split; [exact S1|]. split; [exact S2|exact S4].
Qed.
Print Assumptions C55_partial.
Example C55_partial_ex : between 2 (on_drive [1; 2] false) (init_dev (six [1; 2] false)) /\ tape_ring (on_drive [1; 2] false) = false.
Proof. split; [repeat split; reflexivity|reflexivity]. Qed.
(** So are the commands that write a tape mark and erase a gap (31 and 23; 279 is 23 with its parity). *)
Theorem C55_mark_partial : forall a pa s u t pc, pc = 31 \/ pc = 279 -> between u t s -> 0 <= u < 6 -> with_parity (Z.lor (Z.land a 248) u) = Ok pa -> tape_ring t = false ->
  exists s', seen a s (begin_op pa pc) = Ok (s', [], [SNS_UNITCHK + SNS_CHNEND + SNS_DEVEND]) /\ d_sense0 s' = S_CMDREJ /\ d_pend s' = [] /\
    nth_error (d_tapes s') (Z.to_nat u) = Some (Some (tape_selected false t)).
Proof.
  intros a pa s u t pc [-> | ->] B U W RG; [apply (mark_refused a pa s u t 31 31)|apply (mark_refused a pa s u t 23 279)]; auto.
Qed.
Print Assumptions C55_mark_partial.
Example C55_mark_ex : with_parity 31 = Ok 31 /\ with_parity 23 = Ok 279 /\ match seen 128 (init_dev (six [1; 2] false)) (begin_op 386 31) with Ok (s, _, st) => st = [14] /\ d_sense0 s = S_CMDREJ | _ => False end.
Proof. split; [reflexivity|]. split; [reflexivity|]. vm_compute. split; reflexivity. Qed.

(** C56, as far as it holds: three bytes and any fourth become the four characters that hold the three bytes. *)
Theorem C56_partial : forall a b c x, 0 <= a < 256 -> 0 <= b < 256 -> 0 <= c < 256 -> conv_write 0 0 [a; b; c; x] = pack a b c.
Proof. exact conv_write_pack. Qed.
Print Assumptions C56_partial.
Example C56_ex : conv_write 0 0 [1; 2; 3; 200] = [0; 16; 8; 3] /\ pack 1 2 3 = [0; 16; 8; 3].
Proof. split; reflexivity. Qed.
(** It fails: every fourth byte is lost, the characters are put together in the other order on reading, no frame is written at
    all, and every frame made has even parity and is taken for an error on reading. *)
Theorem C56_fourth_byte_refuted : forall a b c x y, conv_write 0 0 [a; b; c; x] = conv_write 0 0 [a; b; c; y].
Proof. reflexivity. Qed.
Print Assumptions C56_fourth_byte_refuted.
Theorem C56_order_refuted : forall a b c, 0 <= a < 256 -> 0 <= b < 256 -> 0 <= c < 256 ->
  exists x y z, conv_read 0 0 (pack a b c) = [x; y; z] /\
    x + 256 * y + 65536 * z = a / 4 + 64 * (a mod 4 * 16 + b / 16) + 4096 * (b mod 16 * 4 + c / 64) + 262144 * (c mod 64).
Proof. exact conv_read_pack. Qed.
Print Assumptions C56_order_refuted.
Example C56_order_ex : conv_read 0 0 (pack 1 2 3) = [0; 132; 12].
Proof. reflexivity. Qed.
Theorem C56_no_frames_refuted : forall fuel junk s u s', nine s = Ok false -> d_data_end s = false -> write_part fuel junk s u = Ok s' -> d_tapes s' = d_tapes s.
Proof. exact seven_no_frames. Qed.
Print Assumptions C56_no_frames_refuted.
Theorem C56_parity_refuted : forall d b s s', 0 <= d < 256 -> six_parity d = Ok b -> d_data s = b -> read7 s = Ok s' ->
  odd7 b = false /\ d_sense0 s' = S_DCCHK /\ d_sense3 s' = S_VCR.
Proof. exact seven_parity. Qed.
Print Assumptions C56_parity_refuted.
Example C56_parity_ex : six_parity 7 = Ok 71.
Proof. reflexivity. Qed.

(** C57, as far as it holds: the translation is its own inverse except for the characters with the low digit 0 or 10. *)
Theorem C57_partial : forall c e, 0 <= c < 64 -> tab bcd_to_ebcdic c = Ok e -> (tab bcd_to_ebcdic (Z.land (trans_out e) 63) = Ok e <-> c mod 16 <> 0 /\ c mod 16 <> 10).
Proof. exact trans_back. Qed.
Print Assumptions C57_partial.
Example C57_ex : tab bcd_to_ebcdic 49 = Ok 193 /\ tab bcd_to_ebcdic (Z.land (trans_out 193) 63) = Ok 193.
Proof. split; reflexivity. Qed.
(** A blank comes back as an ampersand, a zero as a blank. *)
Theorem C57_refuted : tab bcd_to_ebcdic 0 = Ok 64 /\ tab bcd_to_ebcdic (Z.land (trans_out 64) 63) = Ok 80 /\
  tab bcd_to_ebcdic 10 = Ok 240 /\ tab bcd_to_ebcdic (Z.land (trans_out 240) 63) = Ok 64.
Proof. by_vm. Qed.
Print Assumptions C57_refuted.

(** C65: whatever the channel, the callbacks and the operator do, the control takes part in a cycle only if it is selected in
    that cycle or was selected before and has since been neither reset nor idle. *)
Theorem C65 : forall a s0 l s t bo bi s' t' bi',
  d_st s0 = IDLE -> run a s0 l = Ok s -> dev_step a s t bo bi = Ok (s', t', bi') -> drives t bi t' bi' ->
  selecting a s t bo \/ owned a s0 l.
Proof.
  intros a s0 l s t bo bi s' t' bi' I R H D. destruct (d_st s) eqn:ST; try (right; apply (owned_when_active a s0 I l s R); congruence).
  destruct (idle_step _ _ _ _ _ _ _ _ ST H) as [[SEL _]|[_ N]]; [left; exact SEL|contradiction].
Qed.
Print Assumptions C65.
Example C65_ex : match run 128 (init_dev (six [] true)) [let_go] with
  | Ok s => match dev_step 128 s (out_tags true true false false false false false false false) 131 0, dev_step 136 s (out_tags true true false false false false false false false) 131 0 with
            | Ok (_, t', b), Ok (_, t2, b2) => opri t' = true /\ selo t' = false /\ b = 131 /\ t2 = out_tags true true false false false false false false false /\ b2 = 0
            | _, _ => False end
  | _ => False end.
Proof. by_vm. Qed.

(** C66: with six drives, and the channel addressing only these, no cycle is undefined, and bus-in is as before or has odd
    parity. *)
Theorem C66 : forall a l0 l s t bo bi, six_drives l0 -> Forall (six_units a) (l ++ [Chan t bo bi]) -> run a (init_dev l0) l = Ok s ->
  dev_step a s t bo bi <> UB /\ forall s' t' bi', dev_step a s t bo bi = Ok (s', t', bi') -> bi' = bi \/ odd9 bi'.
Proof. exact chan_defined. Qed.
Print Assumptions C66.
Example C66_ex : six_drives (six [1; 2] true) /\ Forall (six_units 128) (begin_op 128 2 ++ [quiet]) /\
  match run 128 (init_dev (six [1; 2] true)) (begin_op 128 2) with Ok s => d_st s = OPR | _ => False end.
Proof.
  split; [|split; [|by_vm]].
  - split; [reflexivity|]. intros o I. apply repeat_spec in I. subst o. eexists. split; [reflexivity|].
    apply (attach_on drive9 [1; 2] TAP true true (eq_refl (length (w_buf (t_win new_drive))))).
  - cbn [app begin_op quiet]. repeat (constructor; [cbn [six_units out_tags adro]; intros; solve [discriminate | reflexivity]|]). constructor.
Qed.

(** C67, as far as it holds: a reset leaves the control idle and drops its tags if it is selected. *)
Theorem C67_partial : forall a s t bo bi, resetting t -> exists s' t', dev_step a s t bo bi = Ok (s', t', bi) /\
  d_st s' = IDLE /\ d_sel s' = false /\ d_req s' = false /\ d_busy s' = false /\ d_cmd s' = 0 /\ d_cmd_done s' = false /\
  d_sense0 s' = 0 /\ d_data_rdy s' = false /\ d_data_end s' = false /\ d_tapes s' = d_tapes s /\
  (d_sel s = true -> opri t' = false /\ adri t' = false /\ stai t' = false /\ srvi t' = false) /\ (d_sel s = false -> t' = t).
Proof.
  intros a s t bo bi [R1 R2]. unfold dev_step. rewrite R1, R2. cbn [negb andb]. do 2 eexists. split; [reflexivity|].
  do 10 (split; [reflexivity|]). split; intros ->; repeat split.
Qed.
Print Assumptions C67_partial.
Definition reset : act := Chan (mkT false false false false false false false true false false false false) 0 0.
Example C67_ex : match run 128 (init_dev (six [] true)) (begin_op 128 2) with
  | Ok s => d_st s = OPR /\ d_sel s = true /\ match dev_step 128 s (mkT false false false false false false false true false false false false) 0 0 with Ok (_, t', _) => opri t' = false | _ => False end
  | _ => False end.
Proof. by_vm. Qed.
(** A pending status survives a reset: the next command, a sense command, is not executed, but answered with the device end of
    the rewind before the reset; and a read goes on behind the back of the channel. *)
Theorem C67_refuted : match seen 128 (init_dev (six [] true)) (begin_op 128 7 ++ [let_go; Fire 9 0 CbTape 0; reset]) with
  | Ok (s1, _, _) => d_st s1 = IDLE /\ d_status s1 = SNS_DEVEND /\ match seen 128 s1 (begin_op 128 4) with Ok (s2, _, st) => st = [SNS_DEVEND] /\ d_cmd s2 = 0 | _ => False end
  | _ => False end.
Proof. by_vm. Qed.
Print Assumptions C67_refuted.
Theorem C67_read_goes_on_refuted : match run 128 (init_dev (six [2; 0; 0; 0; 7; 8; 2; 0; 0; 0] true)) (begin_op 128 2 ++ [reset]) with
  | Ok s1 => d_pend s1 = [(CbTape, 0)] /\
    match run 128 s1 (begin_op 385 2 ++ [Fire 9 0 CbTape 0]) with
    | Ok s2 => d_cur s2 = 1 /\ d_data s2 = 7 /\ d_data_rdy s2 = true /\ match the_tape s2 0, the_tape s2 1 with Ok t0, Ok t1 => at_byte t0 = 5%nat /\ at_byte t1 = 4%nat | _, _ => False end
    | _ => False end
  | _ => False end.
Proof. by_vm. Qed.
Print Assumptions C67_read_goes_on_refuted.

(** C68, as far as it holds: if the channel sends no command byte with bit 3 (10) and does not reset the control during a busy
    sequence. *)
Theorem C68_partial : forall a l s t, conn False a l s t -> tags_ok s t.
Proof. intros a l s t C. exact (tinv_ok s t (conn_tinv a l s t C)). Qed.
Print Assumptions C68_partial.
Definition none : tags := mkT false false false false false true true false false false false false.
Example C68_ex : exists s t, conn False 128 (six [] true) s t /\ adri t = true /\ opri t = true.
Proof.
  pose proof (eq_refl : match drive 128 (init_dev (six [] true)) none (firstn 2 (begin_op 128 2)) with Ok (_, t) => adri t && opri t | _ => false end = true) as E.
  destruct (drive 128 (init_dev (six [] true)) none (firstn 2 (begin_op 128 2))) as [[s t]| |] eqn:D; try discriminate E. apply andb_true_iff in E.
  exists s, t. split; [|exact E]. refine (conn_drive False 128 _ _ _ none s t _ (conn_init _ _ _ none eq_refl) D). right. reflexivity.
Qed.
(** Otherwise status-in stays up without operational-in: drive 3 has become ready, so that the control is busy for drive 0, and
    the channel resets it. *)
Theorem C68_refuted : exists s t, conn True 128 (six [] true) s t /\ ~ tags_ok s t.
Proof.
  set (l := [Key 3 KReset; Key 3 (KStart true); Chan (out_tags true true false false false false false false false) 128 0; reset]).
  assert (E : match drive 128 (init_dev (six [] true)) none l with Ok (s, t) => stai t && negb (opri t) && match d_st s with IDLE => true | _ => false end | _ => false end = true) by (vm_compute; reflexivity).
  destruct (drive 128 (init_dev (six [] true)) none l) as [[s t]| |] eqn:D; try discriminate E. apply andb_true_iff in E. destruct E as [E E3]. apply andb_true_iff in E. destruct E as [E1 E2].
  exists s, t. split; [refine (conn_drive True 128 _ _ _ none s t (or_introl I) (conn_init _ _ _ none eq_refl) D)|].
  intros (_ & _ & X). destruct (X E1) as [[X1|X1] _]; [rewrite X1 in E2; discriminate E2|rewrite X1 in E3; discriminate E3].
Qed.
Print Assumptions C68_refuted.
(** And a command with bit 3, when the channel disconnects by address-out while the tape moves. *)
Theorem C68_command_refuted : exists s t, conn True 128 (six [2; 0; 0; 0; 7; 8; 2; 0; 0; 0] true) s t /\ ~ tags_ok s t.
Proof.
  set (l := begin_op 128 50 ++ [Chan (out_tags false true false false false false false false false) 0 0; Chan (out_tags false false false false false false false false false) 0 0]).
  assert (E : match drive 128 (init_dev (six [2; 0; 0; 0; 7; 8; 2; 0; 0; 0] true)) none l with Ok (s, t) => stai t && negb (opri t) && match d_st s with END_ACCEPT => true | _ => false end | _ => false end = true) by (vm_compute; reflexivity).
  destruct (drive 128 (init_dev (six [2; 0; 0; 0; 7; 8; 2; 0; 0; 0] true)) none l) as [[s t]| |] eqn:D; try discriminate E. apply andb_true_iff in E. destruct E as [E E3]. apply andb_true_iff in E. destruct E as [E1 E2].
  exists s, t. split; [refine (conn_drive True 128 _ _ _ none s t (or_introl I) (conn_init _ _ _ none eq_refl) D)|].
  intros (_ & _ & X). destruct (X E1) as [[X1|X1] _]; [rewrite X1 in E2; discriminate E2|rewrite X1 in E3; discriminate E3].
Qed.
Print Assumptions C68_command_refuted.

(** C69: whatever blocks are on a tape and whenever the frames come, read commands deliver the bytes of each block in order, with
    channel end and device end, and with unit exception for a tape mark; the drive is ready for the next command, and the head
    is behind the blocks read. *)
Theorem C69 : forall a pa u fuel junk f l s t pre post, 0 <= u < 6 -> with_parity (Z.lor (Z.land a 248) u) = Ok pa -> (f = TAP \/ f = E11) ->
  ready9 u t s -> on t (pre ++ encode f (map fst l) ++ post) (length pre) -> t_fmt t = f -> t_eot t = false ->
  Forall (fun xw => good_item f (fst xw) /\ length (snd xw) = length (frames_of (fst xw))) l ->
  exists s' t', commands a s (map (fun xw => read_op fuel junk pa u (fst xw) (snd xw)) l) = Ok (s', map (fun xw => (frames_of (fst xw), [0; end_status (fst xw)])) l) /\
    ready9 u t' s' /\ on t' (pre ++ encode f (map fst l) ++ post) (length pre + length (encode f (map fst l))).
Proof.
  intros a pa u fuel junk f l s t pre post U W TL R O F ET G.
  destruct (read_tape_ok a pa u fuel junk f U W TL l s t pre post R O F ET G) as (s' & t' & S1 & S2 & S3 & _). exists s', t'. repeat split; assumption || apply S2 || apply S3.
Qed.
Print Assumptions C69.
(** From the start of the program: the tape is put on drive 3 and the drive started; a test I/O takes the device end. *)
Definition tap2 : list Z := [2; 0; 0; 0; 7; 8; 2; 0; 0; 0; 0; 0; 0; 0].
Definition mounted : list act := [Key 3 (KLoad true tap2 TAP false true); Fire 9 0 CbRew 3; Key 3 KReset; Key 3 (KStart true)] ++ begin_op 131 256 ++ [let_go].
Example C69_ex : tap2 = encode TAP [Rec [7; 8]; Mark] /\ match run 128 (init_dev (repeat (Some drive9) 6)) mounted with
  | Ok s => match commands 128 s [read_op 9 0 131 3 (Rec [7; 8]) [5%nat; 0%nat]; read_op 9 0 131 3 Mark []] with Ok (_, r) => r = [([7; 8], [0; 12]); ([], [0; 13])] | _ => False end
  | _ => False end.
Proof. by_vm. Qed.
Example C69_ex2 : ready9 3 (on_drive tap2 true) (init_dev (six tap2 true)) /\ on (on_drive tap2 true) tap2 0 /\ good_item TAP (Rec [7; 8]) /\ good_item TAP Mark.
Proof.
  split; [repeat split; reflexivity|]. split; [exact (attach_on drive9 tap2 TAP true true (eq_refl (length (w_buf (t_win new_drive)))))|]. split; [|exact I]. split; [discriminate|]. split; [repeat (constructor; [lia|]); constructor|cbn; lia].
Qed.

(** C70 fails: after a tape mark has been written at the end of the tape, a read command is accepted, and then nothing is
    pending any more and nothing happens, however long the channel waits. *)
Definition read_end : list act := begin_op 128 2 ++ [Fire 9 0 CbTape 0; Fire 9 0 CbTape 0; Fire 9 0 CbDone 0] ++ take_status.
Definition write_mark : list act := begin_op 128 31 ++ [let_go; Fire 9 0 CbTape 0; Fire 9 0 CbDone 0] ++ begin_op 128 256 ++ [let_go].
Theorem C70_refuted : exists s, run 128 (init_dev (six [] true)) (read_end ++ write_mark ++ begin_op 128 2 ++ [Fire 9 0 CbTape 0]) = Ok s /\
  d_st s = OPR /\ d_cmd s = 2 /\ d_pend s = [] /\
  forall n, seen 128 s (repeat quiet n) = Ok (s, [], []).
Proof.
  assert (E : match run 128 (init_dev (six [] true)) (read_end ++ write_mark ++ begin_op 128 2 ++ [Fire 9 0 CbTape 0]) with
    | Ok s => d_st s = OPR /\ d_req s = false /\ d_data_rdy s = false /\ d_cmd_done s = false /\ d_cmd s = 2 /\ d_pend s = [] | _ => False end) by by_vm.
  destruct (run 128 (init_dev (six [] true)) (read_end ++ write_mark ++ begin_op 128 2 ++ [Fire 9 0 CbTape 0])) as [s| |]; try contradiction E.
  exists s. split; [reflexivity|]. destruct E as (E1 & E2 & E3 & E4 & E5 & E6). split; [exact E1|]. split; [exact E5|]. split; [exact E6|]. apply stuck_step; assumption.
Qed.
Print Assumptions C70_refuted.

(** C71 fails: when drive 3 has become ready and the channel polls, the address given is that of the drive used last. *)
Theorem C71_refuted : match run 128 (init_dev (six [] true)) [Key 3 KReset; Key 3 (KStart true); let_go; let_go; let_go; let_go] with
  | Ok s => d_rdyf s = 8 /\ d_req s = true /\
    match dev_step 128 s (out_tags true false false false false false false false false) 0 0 with
    | Ok (s1, t1, _) => opri t1 = true /\
      match dev_step 128 s1 (out_tags true false false false true false false false false) 0 0 with Ok (_, t2, b) => adri t2 = true /\ Z.land b 255 = 128 | _ => False end
    | _ => False end
  | _ => False end.
Proof. by_vm. Qed.
Print Assumptions C71_refuted.
(** And while the channel answers the address-in of a selected drive, the control shows the address of drive 0. *)
Theorem C71_command_refuted : match run 128 (init_dev (six [] true)) (firstn 2 (begin_op 131 2)) with
  | Ok s => match dev_step 128 s (out_tags false false false false true true false false false) 0 0 with Ok (s1, t1, b) => adri t1 = true /\ b = 128 /\ d_cur s1 = 3 | _ => False end
  | _ => False end.
Proof. by_vm. Qed.
Print Assumptions C71_command_refuted.
(** What holds: in the first cycle of an initial selection the control shows the address it was given. *)
Theorem C71_partial : forall a pa s u t, between u t s -> 0 <= u < 6 -> with_parity (Z.lor (Z.land a 248) u) = Ok pa ->
  exists s' t', dev_step a s (out_tags true true false false false false false false false) pa 0 = Ok (s', t', pa) /\ opri t' = true /\ d_st s' = INIT_SEL /\ d_cur s' = u.
Proof. exact first_address. Qed.
Print Assumptions C71_partial.

(** C72: with six drives, and only these addressed, nothing undefined ever happens. *)
Theorem C72 : forall a l0 l, six_drives l0 -> Forall (six_units a) l -> run a (init_dev l0) l <> UB.
Proof. exact run_defined. Qed.
Print Assumptions C72.
Example C72_ex : six_drives (six [1; 2] true) /\ Forall (six_units 128) (begin_op 128 2 ++ [Fire 9 0 CbTape 0; Key 5 KUnload; Fire 9 0 CbTape 0]) /\
  match run 128 (init_dev (six [1; 2] true)) (begin_op 128 2 ++ [Fire 9 0 CbTape 0; Key 5 KUnload; Fire 9 0 CbTape 0]) with Ok s => d_cur s = 0 | _ => False end.
Proof.
  split; [exact (proj1 C66_ex)|]. split; [|by_vm].
  cbn [app begin_op quiet]. repeat (constructor; [cbn [six_units out_tags adro]; intros; solve [discriminate | reflexivity | lia | exact I]|]). constructor.
Qed.
(** Without the conditions it does: drive 6 of a control with six drives is outside the table, and a drive that was not
    configured is a null pointer. *)
Theorem C72_unit_6_refuted : run 128 (init_dev (six [] true)) (begin_op 134 2) = UB.
Proof. by_vm. Qed.
Print Assumptions C72_unit_6_refuted.
Theorem C72_no_drive_refuted : run 128 (init_dev (upd (six [] true) 1 None)) (begin_op 385 2) = UB.
Proof. by_vm. Qed.
Print Assumptions C72_no_drive_refuted.

(** C73: a rewind command is accepted with channel end; the drive goes back to the load point, whatever was still in the
    buffer is in the file, and the drive reports ready. *)
Theorem C73 : forall a pa s u t c k fuel junk, between u t s -> 0 <= u < 6 -> with_parity (Z.lor (Z.land a 248) u) = Ok pa -> on t c k ->
  exists s1, seen a s (begin_op pa 7 ++ [let_go; Fire fuel junk CbTape u]) = Ok (s1, [], [SNS_CHNEND]) /\ d_st s1 = IDLE /\
  exists m s2 t2, run a s1 (repeat (Fire fuel junk CbRew u) m) = Ok s2 /\ d_pend s2 = [] /\ nth_error (d_tapes s2) (Z.to_nat u) = Some (Some t2) /\
    tape_at_loadpt t2 = true /\ on t2 c 0 /\ w_file (t_win t2) = c /\ has (d_rew s2) u = false /\ has (d_rdyf s2) u = true.
Proof. exact rewind_done. Qed.
Print Assumptions C73.
Example C73_ex : between 2 (on_drive [1; 2] true) (init_dev (six [1; 2] true)) /\ on (on_drive [1; 2] true) [1; 2] 0.
Proof. split; [repeat split; reflexivity|]. exact (attach_on drive9 [1; 2] TAP true true (eq_refl (length (w_buf (t_win new_drive))))). Qed.
(** A rewind and unload takes the tape off. *)
Theorem C73_unload : forall a fuel junk u s t, 0 <= u -> nth_error (d_tapes s) (Z.to_nat u) = Some (Some t) -> t_att t = true -> d_pend s = [(CbRew, u)] -> has (d_run s) u = true ->
  exists m s' t', run a s (repeat (Fire fuel junk CbRew u) m) = Ok s' /\ d_pend s' = [] /\ nth_error (d_tapes s') (Z.to_nat u) = Some (Some t') /\ t_att t' = false /\ has (d_run s') u = false.
Proof. exact unload_done. Qed.
Print Assumptions C73_unload.
Example C73_unload_ex : match run 128 (init_dev (six [1; 2] true)) [Key 2 KReset; Key 2 KUnload] with
  | Ok s => match the_tape s 2 with Ok t => t_att t = true | _ => False end /\ d_pend s = [(CbRew, 2)] /\ has (d_run s) 2 = true
  | _ => False end.
Proof. by_vm. Qed.

(** C74: the file of a write-protected tape stays as it is, whatever the channel and the operator do, until another tape is put
    on the drive. *)
Theorem C74 : forall a l0 l u t f s t', six_drives l0 -> Forall (six_units a) l -> 0 <= u < 6 ->
  nth_error l0 (Z.to_nat u) = Some (Some t) -> w_ro (t_win t) = true -> w_file (t_win t) = f -> Forall (not_loaded u) l ->
  run a (init_dev l0) l = Ok s -> nth_error (d_tapes s) (Z.to_nat u) = Some (Some t') -> w_file (t_win t') = f.
Proof. exact protected_file. Qed.
Print Assumptions C74.
Example C74_ex : six_drives (six [1; 2] false) /\ w_ro (t_win (on_drive [1; 2] false)) = true /\ w_file (t_win (on_drive [1; 2] false)) = [1; 2] /\
  match run 128 (init_dev (six [1; 2] false)) (begin_op 128 1 ++ [let_go] ++ begin_op 128 31) with Ok s => match the_tape s 0 with Ok t' => w_file (t_win t') = [1; 2] | _ => False end | _ => False end.
Proof.
  split; [|split; [reflexivity|split; [reflexivity|by_vm]]].
  split; [reflexivity|]. intros o I. apply repeat_spec in I. subst o. eexists. split; [reflexivity|].
  apply (attach_on drive9 [1; 2] TAP false true (eq_refl (length (w_buf (t_win new_drive))))).
Qed.

(** C75 fails: a read command at the end of the tape, behind the last block, ends without data and without any indication; and
    so does the next. *)
Theorem C75_refuted : ready9 0 (on_drive [] true) (init_dev (six [] true)) /\
  match seen 128 (init_dev (six [] true)) read_end with
  | Ok (s1, d1, st1) => d1 = [] /\ st1 = [0; SNS_CHNEND + SNS_DEVEND] /\
    match seen 128 s1 read_end with Ok (s2, d2, st2) => d2 = [] /\ st2 = [0; SNS_CHNEND + SNS_DEVEND] /\ d_sense0 s2 = 0 | _ => False end
  | _ => False end.
Proof. split; [repeat split; reflexivity|by_vm]. Qed.
Print Assumptions C75_refuted.
