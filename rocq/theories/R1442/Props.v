(** The card reader and punch: C50 to C54 and C58. *)
From Verif Require Import R1442.Spec R1442.Proofs R1442.Proofs2 R1442.Proofs3 R1442.Proofs4.

(** C50: whatever the channel, the callbacks and the operator do, the device takes part in a cycle only if it is selected
    in that cycle or was selected before and has since been neither reset nor idle. *)
Theorem C50 : forall a s0 l s t bo bi s' t' bi',
  d_st s0 = IDLE -> run a s0 l = Ok s -> dev_step a s t bo bi = Ok (s', t', bi') -> drives t bi t' bi' ->
  selecting a s t bo \/ owned a s0 l.
Proof.
  intros a s0 l s t bo bi s' t' bi' I R H D. destruct (d_st s) eqn:ST; try (right; apply (owned_when_active a s0 I l s R); congruence).
  destruct (idle_step _ _ _ _ _ _ _ _ ST H) as [[SEL _]|[_ N]]; [left; exact SEL|contradiction].
Qed.
Print Assumptions C50.
Example C50_ex : exists s s' t', run 12 init_dev [Chan (quiet_tags true) 0 0] = Ok s /\
  dev_step 12 s (out_tags true true false false false false false false false) 268 0 = Ok (s', t', 268) /\ opri t' = true /\ selo t' = false /\
  drives (out_tags true true false false false false false false false) 0 t' 268 /\
  exists s2, dev_step 13 s (out_tags true true false false false false false false false) 268 0 = Ok (s2, out_tags true true false false false false false false false, 0).
Proof. do 3 eexists. split; [vm_compute; reflexivity|]. split; [vm_compute; reflexivity|]. split; [reflexivity|]. split; [reflexivity|]. split; [left; split; reflexivity|eexists; vm_compute; reflexivity]. Qed.

(** C51, as far as it holds: whenever a cycle has a defined result, bus-in is as before or has odd parity; and as long as the
    channel sends no write or control commands, every cycle has one.  Missing: writes (see below). *)
Theorem C51_partial : forall a s t bo bi s' t' bi', dev_step a s t bo bi = Ok (s', t', bi') -> bi' = bi \/ odd9 bi'.
Proof. exact chan_odd. Qed.
Print Assumptions C51_partial.
Theorem C51_defined_partial : forall a l s t bo bi, run a init_dev l = Ok s -> no_writes (l ++ [Chan t bo bi]) ->
  exists s' t' bi', dev_step a s t bo bi = Ok (s', t', bi') /\ (bi' = bi \/ odd9 bi').
Proof.
  intros a l s t bo bi R N. assert (RG : regs_ok s) by (apply (run_regs a l init_dev s regs_init); [intros t1 b1 c1 I; apply (N t1 b1 c1), in_or_app; left; exact I|exact R]).
  destruct (chan_regs a s t bo bi RG) as (s' & t' & bi' & E & _ & O); [intros C; apply (N t bo bi); [apply in_or_app; right; left; reflexivity|exact C]|].
  exists s', t', bi'. split; assumption.
Qed.
Print Assumptions C51_defined_partial.
Example C51_ex : exists s s' t', run 12 init_dev (two_cards ++ begin_op 268 2 ++ [Fire CbRead; Chan (out_tags false false false false true false false false false) 0 0]) = Ok s /\
  dev_step 12 s (out_tags false false false false true false false false false) 0 0 = Ok (s', t', 64) /\ srvi t' = true /\ odd9 64.
Proof. do 3 eexists. split; [vm_compute; reflexivity|]. split; [vm_compute; reflexivity|]. repeat split; try reflexivity; discriminate. Qed.
(** C51 fails for writes: the byte is kept with its parity bit, and the next cycle looks it up beyond the end of the parity
    table. *)
Theorem C51_refuted : exists s, run 12 init_dev punch_zero = Ok s /\
  dev_step 12 s (out_tags false false false false true false false false false) 0 0 = UB.
Proof. eexists. split; vm_compute; reflexivity. Qed.
Print Assumptions C51_refuted.

(** C52, as far as it holds: a reset leaves the device idle with nothing in progress, and drops its tags if it is selected. *)
Theorem C52_partial : forall a s t bo bi, resetting t -> exists s' t', dev_step a s t bo bi = Ok (s', t', bi) /\
  d_st s' = IDLE /\ d_sel s' = false /\ d_req s' = false /\ d_busy s' = false /\ d_cmd s' = 0 /\ d_cmd_done s' = false /\ d_status s' = 0 /\
  d_sense s' = 0 /\ d_data_rdy s' = false /\ d_data_end s' = false /\
  (d_sel s = true -> opri t' = false /\ adri t' = false /\ stai t' = false /\ srvi t' = false) /\ (d_sel s = false -> t' = t).
Proof.
  intros a s t bo bi [R1 R2]. unfold dev_step. rewrite R1, R2. cbn [negb andb]. do 2 eexists. split; [reflexivity|].
  do 10 (split; [reflexivity|]). split; intros ->; repeat split.
Qed.
Print Assumptions C52_partial.
(** ... and afterwards it stays silent until it is addressed, if no status was stacked and no callback was pending. *)
Theorem C52_quiet_partial : forall a s t bo bi s1 l s2 t2 bo2 bi2, resetting t -> d_stk s = false -> d_pend s = [] ->
  run a s [Chan t bo bi] = Ok s1 -> Forall (unaddressed a) l -> run a s1 l = Ok s2 -> unaddressed a (Chan t2 bo2 bi2) ->
  exists s3 t3, dev_step a s2 t2 bo2 bi2 = Ok (s3, t3, bi2) /\ ~ drives t2 bi2 t3 bi2 /\ (reqi t3 = true -> reqi t2 = true).
Proof.
  intros a s t bo bi s1 l s2 t2 bo2 bi2 [R1 R2] SK PE H F R U.
  assert (C1 : calm s1).
  { cbn [run astep] in H. unfold dev_step in H. rewrite R1, R2 in H. cbn [negb andb bind fst] in H. injection H as <-. repeat split; assumption. }
  pose proof (calm_run a l s1 s2 C1 F R) as C2. destruct (calm_chan a s2 t2 bo2 bi2 C2 ltac:(auto) U) as (s3 & t3 & E & _ & D & Q). exists s3, t3. repeat split; assumption.
Qed.
Print Assumptions C52_quiet_partial.
Example C52_ex : exists s s1 s2, run 12 init_dev (two_cards ++ [Chan (out_tags true true false false false false false false false) 268 0]) = Ok s /\
  d_st s = INIT_SEL /\ d_stk s = false /\ d_pend s = [] /\ resetting (quiet_tags false) /\ run 12 s [Chan (quiet_tags false) 0 0] = Ok s1 /\
  run 12 s1 [Chan (quiet_tags true) 0 0; Key KEof] = Ok s2.
Proof. do 3 eexists. split; [vm_compute; reflexivity|]. do 3 (split; [reflexivity|]). split; [split; reflexivity|]. split; vm_compute; reflexivity. Qed.
(** C52 fails: stacked status survives a reset and is offered again; *)
Theorem C52_stacked_refuted : exists s s' t', run 12 init_dev (refused ++ [Chan (quiet_tags false) 0 0]) = Ok s /\
  dev_step 12 s (quiet_tags true) 0 0 = Ok (s', t', 0) /\ reqi t' = true.
Proof. do 3 eexists. split; [vm_compute; reflexivity|]. split; [vm_compute; reflexivity|reflexivity]. Qed.
Print Assumptions C52_stacked_refuted.
(** the operation goes on, and asks for service; *)
Theorem C52_pending_refuted : exists s s' t', run 12 init_dev (two_cards ++ begin_op 268 2 ++ [Chan (quiet_tags false) 0 0; Fire CbRead]) = Ok s /\
  dev_step 12 s (quiet_tags true) 0 0 = Ok (s', t', 0) /\ reqi t' = true.
Proof. do 3 eexists. split; [vm_compute; reflexivity|]. split; [vm_compute; reflexivity|reflexivity]. Qed.
Print Assumptions C52_pending_refuted.
(** and the status-in of a busy sequence stays up for good. *)
Theorem C52_busy_refuted : exists s s' t', run 12 init_dev (two_cards ++ begin_op 268 2 ++
    [Chan (mkT false false false false false false true true false false false false) 0 0;
     Chan (out_tags true true false false false false false false false) 268 0]) = Ok s /\ d_st s = BUSY /\
  dev_step 12 s (mkT false false false false false false false false false true false false) 0 0 = Ok (s', t', 0) /\ stai t' = true /\ d_st s' = IDLE.
Proof. do 3 eexists. split; [vm_compute; reflexivity|]. split; [reflexivity|]. split; [vm_compute; reflexivity|]. split; reflexivity. Qed.
Print Assumptions C52_busy_refuted.

(** C53: whatever the channel, the callbacks and the operator do (other than putting cards in or taking them out), the cards
    that left the punch went to the stackers in their order, the other cards are still on their way in their order, and none
    has lost a hole. *)
Theorem C53 : forall a l s s', cards_ok s -> Forall keeps_cards l -> run a s l = Ok s' ->
  cards_ok s' /\ exists out,
    stacked (d_stack0 s') = stacked (d_stack0 s) ++ to_stacker false out /\
    stacked (d_stack1 s') = stacked (d_stack1 s) ++ to_stacker true out /\
    Forall2 punched (path s) (map snd out ++ path s').
Proof. intros a l s s' OK K R. destruct (run_moves a l s s' OK K R) as (OK' & out & (G1 & G2) & P). split; [exact OK'|]. exists out. split; [exact G1|]. split; [exact G2|exact P]. Qed.
Print Assumptions C53.
(** A feed always works. *)
Theorem C53_feed : forall s, cards_ok s -> exists s' out, do_feed s = Ok s' /\ cards_ok s' /\
  stacked (d_stack0 s') = stacked (d_stack0 s) ++ to_stacker false out /\ stacked (d_stack1 s') = stacked (d_stack1 s) ++ to_stacker true out /\
  path s = map snd out ++ path s'.
Proof. intros s OK. destruct (feed_cards s OK) as (s' & out & E & OK' & (G1 & G2) & P). exists s', out. repeat split; assumption || apply OK'. Qed.
Print Assumptions C53_feed.
Example C53_ex : exists s s', run 12 init_dev two_cards = Ok s /\ path s = [blank; blank] /\ stacked (d_stack0 s) = [] /\
  run 12 s [Key KNpro; Key KEof; Key KNpro] = Ok s' /\ path s' = [blank] /\ stacked (d_stack0 s') = [blank] /\ cards_ok init_dev.
Proof.
  do 2 eexists. split; [vm_compute; reflexivity|]. split; [vm_compute; reflexivity|]. split; [vm_compute; reflexivity|]. split; [vm_compute; reflexivity|]. split; [vm_compute; reflexivity|]. split; [vm_compute; reflexivity|].
  assert (G : ctx_good init_ctx) by (split; [repeat constructor|apply Forall_nil]). assert (B : is_card blank) by (split; [reflexivity|unfold blank; apply Forall_forall; intros x X; apply repeat_spec in X; subst x; lia]).
  repeat split; apply G || apply B.
Qed.

(** C54, as far as it holds: on a multiplexer channel (hold-out down) that does not reset the device in the middle of a busy
    sequence, at most one of address-in, status-in and service-in is up, and only with operational-in, except for the status-in
    of the busy sequence. *)
Theorem C54_partial : forall a s t, conn False a s t -> tags_ok s t.
Proof. intros a s t C. apply tinv_ok, (conn_tinv a). exact C. Qed.
Print Assumptions C54_partial.
Example C54_ex : exists s t, conn False 12 s t /\ adri t = true /\ opri t = true.
Proof.
  eexists _, _. split; [|split].
  - eapply conn_chan with (t1 := mkT true false false false false false true true false false false false) (bo := 0) (bi := 0).
    + eapply conn_chan with (t1 := mkT true true false false false false true false false false false false) (bo := 268) (bi := 0).
      * apply (conn_init _ _ (quiet_tags true)). reflexivity.
      * reflexivity.
      * right. split; [reflexivity|intros [? _]; discriminate].
      * vm_compute. reflexivity.
    + reflexivity.
    + right. split; [reflexivity|intros [? _]; discriminate].
    + vm_compute. reflexivity.
  - reflexivity.
  - reflexivity.
Qed.
(** C54 fails on a selector channel: the device end is presented without operational-in. *)
Theorem C54_refuted : exists s t, conn True 12 s t /\ stai t = true /\ opri t = false /\ d_st s <> BUSY.
Proof.
  assert (E : exists s t, link 12 init_dev (quiet_tags true) held_read = Ok (s, t) /\ stai t = true /\ opri t = false /\ d_st s = STATUS_ACCEPT)
    by (eexists _, _; split; [vm_compute; reflexivity|repeat split]).
  destruct E as (s & t & E & T1 & T2 & T3). exists s, t. split; [|split; [exact T1|split; [exact T2|congruence]]].
  apply (conn_link 12 held_read init_dev (quiet_tags true)); [apply conn_init; reflexivity|exact E].
Qed.
Print Assumptions C54_refuted.

(** C58: when the device is ready and the channel gives it a read command, and takes each byte before the next column comes,
    the channel gets the 80 bytes of the card in the reader, zero for columns that are no character, and then channel end. *)
Theorem C58 : forall a pa s c, ready c s -> is_card c -> with_parity (Z.land a 255) = Ok pa ->
  exists s' es, seen a s (begin_op pa 2 ++ concat (repeat read_col 80) ++ end_op) = Ok (s', es, [0; SNS_CHNEND]) /\ Forall2 column_byte c es.
Proof. exact read_card_seen. Qed.
Print Assumptions C58.
Example C58_ex : exists s, run 12 init_dev two_cards = Ok s /\ ready blank s /\ with_parity (Z.land 12 255) = Ok 268 /\ column_byte 0 64 /\ column_byte 4095 0.
Proof.
  eexists. split; [vm_compute; reflexivity|]. split; [repeat split; reflexivity|]. split; [reflexivity|]. split; [left; split; [lia|reflexivity]|right; split; [reflexivity|]].
  intros x X. pose proof (sweep 256 (fun x => match tab ebcdic_to_hol_table x with Ok h => negb (h =? 4095) | _ => false end) ltac:(vm_compute; reflexivity) x X) as S. cbn beta in S. intros E. rewrite E in S. discriminate.
Qed.
