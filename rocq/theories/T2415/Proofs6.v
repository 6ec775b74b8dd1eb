(** The tape control: writing, rewinding, the converter and the translator. *)
From Verif Require Export T2415.Proofs5.

Definition sense1_7 (t : tape) : Z := Z.lor (sense1_of t) (if tape_9_track t then 0 else S_7TRACK).
(** A write command that is refused at once: no ring (command reject), or whatever tape_write_start says. *)
Lemma cmd_write_flat v1 v2 v5 v6 v8 v10 v11 v12 v14 v15 v16 v17 v18 v19 u v21 v22 rew run v26 ts v28 v29 v30 t t1 sn :
  0 <= u < 6 -> nth_error ts (Z.to_nat u) = Some (Some t) -> tape_ready t = true -> bit v5 S_NOISE = false ->
  Z.land (Z.lor rew run) (2 ^ u) = 0 ->
  (tape_ring t = false /\ t1 = tape_selected true t /\ sn = S_CMDREJ) \/ (tape_ring t = true /\ tape_write_start (tape_selected true t) = Ok (t1, SOk) /\ sn = S_INTERV) ->
  exists ts', nth_error ts' (Z.to_nat u) = Some (Some (tape_selected false t1)) /\
  device_cmd (mkD STATUS v1 v2 false 0 v5 v6 0 v8 false v10 v11 v12 0 v14 v15 v16 v17 v18 v19 u v21 v22 rew run 0 v26 ts v28 v29 v30 []) 1 =
  Ok (mkD STATUS v1 v2 false sn (sense1_7 t) 3 0 v8 false v10 0 true 14 v14 v15 false true v18 v19 u (-1) v22 rew run (drop 0 u) (drop v26 u) ts' 0 v29 v30 []).
Proof.
  intros U HN RD NZ RR H. unfold device_cmd. change (Z.land 1 15) with 1. dred. change (0 =? 0) with true. change (1 =? 4) with false. rewrite NZ. change (bit 0 (S_VCR + S_LRCR)) with false.
  dred. replace (if if u =? v21 then true else false then false else false) with false by (destruct (u =? v21); reflexivity).
  unfold cmd_begin, unit_tape. dred.
  rewrite (proj2 (Z.ltb_ge u 0)) by lia. rewrite HN. dred. rewrite RD. rewrite RR. change (0 =? 0) with true. dred.
  change (1 =? 0) with false. change (1 =? 1) with true. dred.
  assert (A : t_att (tape_selected true t) = true) by (unfold tape_ready in RD; apply andb_true_iff in RD; apply RD).
  unfold cmd_write, sense1_7, sense1_of. dred.
  destruct H as [(RG & -> & ->)|(RG & WS & ->)]; rewrite RG; dred; destruct (tape_at_loadpt t), (tape_9_track t); dred.
  all: match goal with |- context [bit ?x S_TUB] => change (bit x S_TUB) with false end; dred;
    unfold the_tape, unit_tape; dred; rewrite (proj2 (Z.ltb_ge u 0)) by lia; rewrite (nth_upd _ _ _ _ HN); dred; rewrite A; dred.
  all: change (tape_ring (tape_selected true t)) with (tape_ring t); rewrite RG; dred.
  all: try (rewrite WS; dred; unfold is1, is2; dred).
  all: unfold cmd_end, unit_tape; dred.
  all: match goal with |- context [negb (Z.land ?x ?y =? 0)] => change (negb (Z.land x y =? 0)) with true | |- context [Z.land ?x (Z.lnot S_WCZERO) =? 0] => change (Z.land x (Z.lnot S_WCZERO) =? 0) with false end; dred.
  all: rewrite (proj2 (Z.ltb_ge u 0)) by lia.
  all: try (erewrite (nth_upd _ _ _ t1) by (apply nth_upd with (1 := HN))); try (rewrite (nth_upd _ _ _ _ HN)); dred.
  all: eexists; split; [|reflexivity].
  all: eapply nth_upd; first [eapply nth_upd; eapply nth_upd; exact HN | eapply nth_upd; exact HN].
Qed.
Lemma write_refused a pa s u t t1 sn : between u t s -> 0 <= u < 6 -> with_parity (Z.lor (Z.land a 248) u) = Ok pa ->
  (tape_ring t = false /\ t1 = tape_selected true t /\ sn = S_CMDREJ) \/ (tape_ring t = true /\ tape_write_start (tape_selected true t) = Ok (t1, SOk) /\ sn = S_INTERV) ->
  exists s', seen a s (begin_op pa 1) = Ok (s', [], [14]) /\ d_sense0 s' = sn /\ d_pend s' = [] /\ nth_error (d_tapes s') (Z.to_nat u) = Some (Some (tape_selected false t1)).
Proof.
  intros R U W H.
  assert (UB : 0 <= Z.lor (Z.land a 248) u < 256) by (apply lor_byte; [rewrite Z.land_comm; apply land_le; lia|lia]).
  destruct (with_parity_ok _ UB) as (y & W' & _ & L & _). rewrite W in W'. injection W' as <-.
  destruct (addr_bits a u pa U L) as [L1 L2]. pose proof (parity_good _ _ UB W) as BP.
  destruct (with_parity_ok _ (land_byte a)) as (pz & WZ & _).
  flat s. unfold between in R. fld R. destruct R as (-> & -> & -> & -> & -> & -> & NZ & -> & RR & -> & HN & RD).
  assert (B2 : bad_parity 1 = Ok false) by reflexivity. assert (W0 : with_parity 14 = Ok 14) by reflexivity.
  pose proof (fun v1 v2 v22 => cmd_write_flat v1 v2 v5 v6 v8 v10 v11 v12 v14 v15 v16 v17 v18 v19 u v21 v22 v23 v24 v26 v27 v28 v29 v30 t t1 sn U HN RD NZ RR H) as DC.
  unfold begin_op. destruct v2.
  all: erewrite seen_chan by (unfold dev_step; dred; rewrite has_zero; dred; rewrite L1, Z.eqb_refl, BP; dred; change (0 =? 0) with true; dred; rewrite L2; unfold unit_addr; dred; rewrite W; dred; reflexivity).
  all: erewrite seen_chan by (unfold dev_step, unit_addr; dred; rewrite W; dred; reflexivity).
  all: match goal with |- context [mkD COMMAND true ?v2 false 0 _ _ 0 _ false _ _ _ 0 _ _ _ _ _ _ ?u0 _ ?v22 _ _ _ _ _ _ _ _ _] => destruct (DC true false v22) as (ts' & HT & DC') end.
  all: erewrite seen_chan by (unfold dev_step; dred; rewrite WZ; dred; rewrite B2; dred; change (0 =? 0) with true; dred; change (Z.land 1 255) with 1; rewrite DC'; reflexivity).
  all: erewrite seen_chan by (unfold dev_step; dred; rewrite W0; dred; reflexivity).
  all: erewrite seen_chan by (unfold dev_step; dred; rewrite W0; dred; reflexivity).
  all: cbn [seen]; dred; eexists; split; [reflexivity|]; cbn [d_sense0 d_pend d_tapes]; auto.
Qed.
Lemma write_start_on t c k : won t c k -> tap_like (t_fmt t) -> t_ring t = true ->
  exists t1, tape_write_start t = Ok (t1, SOk) /\ bytes_on t1 = overwrite c k [0; 0; 0; 0] /\ at_byte t1 = (k + 4)%nat.
Proof.
  intros WN TL RG. pose proof WN as (A & _).
  set (t0 := set_srec (set_parity (set_mark (set_bot t false) false) false) (Z.of_nat (cursor (t_win t)))).
  destruct (write_bytes_on [0; 0; 0; 0] t0 c k WN) as (w' & E & W' & _).
  eexists. split; [unfold tape_write_start; rewrite A, RG; cbn [negb]; cbv zeta; change (t_fmt (set_srec _ _)) with (t_fmt t); fold t0; destruct TL as [-> | ->]; rewrite E; reflexivity|].
  destruct W' as (_ & _ & _ & _ & B & K). split; [exact B|exact K].
Qed.

(** Rewinding: the callbacks come until the tape is at the load point. *)
Lemma rew_step s u t fuel junk : 0 <= u -> nth_error (d_tapes s) (Z.to_nat u) = Some (Some t) -> t_att t = true -> d_pend s = [(CbRew, u)] -> 0 < t_frame t ->
  exists s' t', fire fuel junk s CbRew u = Ok s' /\ nth_error (d_tapes s') (Z.to_nat u) = Some (Some t') /\ t_att t' = true /\ d_pend s' = [(CbRew, u)] /\ 0 <= t_frame t' < t_frame t /\
    t_win t' = t_win t /\ d_run s' = d_run s /\ d_rew s' = d_rew s /\ d_st s' = d_st s /\ d_rdyf s' = d_rdyf s /\ d_cur s' = d_cur s.
Proof.
  intros U HN A P F. unfold fire. rewrite P. cbn [existsb remove_ev]. rewrite ev_same. cbn [orb].
  unfold rew_cb, the_tape, unit_tape. cbn [d_tapes set_pend]. rewrite (proj2 (Z.ltb_ge u 0)) by lia. rewrite HN. cbn [bind].
  set (n := if t_frame t <=? 5 * 12 * 1600 then 1 else 3840). assert (N : 1 <= n <= t_frame t) by (unfold n; destruct (Z.leb_spec (t_frame t) (5 * 12 * 1600)); lia).
  unfold tape_rewind_frames. rewrite A. cbn [negb]. rewrite (proj2 (Z.ltb_ge (t_frame t) n)) by lia.
  do 2 eexists. split; [reflexivity|]. cbn [d_tapes set_tape set_tapes set_pend add_ev d_pend]. split; [eapply nth_upd; exact HN|]. split; [exact A|]. split; [reflexivity|].
  cbn [t_frame set_frame]. split; [lia|]. repeat split.
Qed.
Lemma rew_last s u t fuel junk : 0 <= u -> nth_error (d_tapes s) (Z.to_nat u) = Some (Some t) -> t_att t = true -> d_pend s = [(CbRew, u)] -> t_frame t <= 0 ->
  exists s' t', fire fuel junk s CbRew u = Ok s' /\ nth_error (d_tapes s') (Z.to_nat u) = Some (Some t') /\ d_pend s' = [] /\ d_rew s' = drop (d_rew s) u /\
    (has (d_run s) u = false -> t' = set_bot (set_frame t 0) true /\ d_run s' = d_run s /\ (d_st s = IDLE \/ d_cur s <> u -> d_rdyf s' = put (d_rdyf s) u)) /\
    (has (d_run s) u = true -> t' = fst (tape_detach (set_bot (set_frame t 0) true)) /\ d_run s' = drop (d_run s) u /\ d_rdyf s' = d_rdyf s).
Proof.
  intros U HN A P F. unfold fire. rewrite P. cbn [existsb remove_ev]. rewrite ev_same. cbn [orb].
  unfold rew_cb, the_tape, unit_tape. cbn [d_tapes set_pend]. rewrite (proj2 (Z.ltb_ge u 0)) by lia. rewrite HN. cbn [bind].
  rewrite (proj2 (Z.leb_le (t_frame t) (5 * 12 * 1600))) by lia. unfold tape_rewind_frames. rewrite A. cbn [negb]. rewrite (proj2 (Z.ltb_lt (t_frame t) 1)) by lia.
  unfold rew_end. cbv zeta. cbn [d_run set_rew set_tape set_tapes set_pend]. destruct (has (d_run s) u) eqn:HR.
  - unfold the_tape, unit_tape. cbn [d_tapes set_rew set_tape set_tapes set_pend]. rewrite (proj2 (Z.ltb_ge u 0)) by lia. rewrite (nth_upd _ _ _ _ HN). cbn [bind].
    do 2 eexists. split; [reflexivity|]. cbn [d_tapes set_rew set_run set_tape set_tapes set_pend d_pend d_rew d_run d_rdyf]. split; [eapply nth_upd, nth_upd; exact HN|]. split; [reflexivity|]. split; [reflexivity|].
    split; [discriminate|]. intros _. repeat split.
  - cbn [d_cur d_st set_rew set_tape set_tapes set_pend]. destruct ((d_cur s =? u) && negb (match d_st s with IDLE => true | _ => false end)) eqn:B.
    + do 2 eexists. split; [reflexivity|]. split; [eapply nth_upd; exact HN|]. split; [reflexivity|]. split; [reflexivity|]. split; [|discriminate]. intros _. split; [reflexivity|]. split; [reflexivity|].
      apply andb_true_iff in B. destruct B as [B1 B2]. apply Z.eqb_eq in B1. intros [E|E]; [rewrite E in B2; discriminate B2|contradiction].
    + do 2 eexists. split; [reflexivity|]. split; [eapply nth_upd; exact HN|]. split; [reflexivity|]. split; [reflexivity|]. split; [|discriminate]. intros _. repeat split.
Qed.
Lemma rew_all a fuel junk u : 0 <= u -> forall n s t, t_frame t < Z.of_nat (S n) -> nth_error (d_tapes s) (Z.to_nat u) = Some (Some t) -> t_att t = true -> d_pend s = [(CbRew, u)] ->
  exists m s' t', run a s (repeat (Fire fuel junk CbRew u) m) = Ok s' /\ nth_error (d_tapes s') (Z.to_nat u) = Some (Some t') /\ d_pend s' = [] /\ d_rew s' = drop (d_rew s) u /\
    (has (d_run s) u = false -> t_win t' = t_win t /\ t_att t' = true /\ tape_at_loadpt t' = true /\ t_frame t' = 0 /\ d_run s' = d_run s /\ (d_st s = IDLE \/ d_cur s <> u -> d_rdyf s' = put (d_rdyf s) u)) /\
    (has (d_run s) u = true -> t_att t' = false /\ d_run s' = drop (d_run s) u /\ d_rdyf s' = d_rdyf s).
Proof.
  intros U. induction n as [|n IH]; intros s t F HN A P.
  - destruct (rew_last s u t fuel junk U HN A P ltac:(lia)) as (s' & t' & E & HN' & P' & RW & H1 & H2). exists 1%nat, s', t'. cbn [repeat run astep]. rewrite E. cbn [bind]. split; [reflexivity|].
    split; [exact HN'|]. split; [exact P'|]. split; [exact RW|]. split.
    + intros HR. destruct (H1 HR) as (-> & R1 & R2). repeat split; auto.
    + intros HR. destruct (H2 HR) as (-> & R1 & R2). repeat split; auto.
  - destruct (Z_le_gt_dec (t_frame t) 0) as [L|L].
    + apply (IH s t); auto; lia.
    + destruct (rew_step s u t fuel junk U HN A P ltac:(lia)) as (s1 & t1 & E & HN1 & A1 & P1 & F1 & W1 & Q1 & Q2 & Q3 & Q4 & Q5).
      destruct (IH s1 t1 ltac:(lia) HN1 A1 P1) as (m & s' & t' & R & HN' & P' & RW & H1 & H2). exists (S m), s', t'. cbn [repeat run astep]. rewrite E. cbn [bind].
      rewrite Q1, Q3, Q4, Q5, W1 in *. rewrite Q2 in RW. repeat (split; [assumption|]). assumption.
Qed.

Lemma cmd_rewind_flat v1 v2 v5 v6 v8 v10 v11 v12 v14 v15 v16 v17 v18 v19 u v21 v22 rew run v26 ts v28 v29 v30 t :
  0 <= u < 6 -> nth_error ts (Z.to_nat u) = Some (Some t) -> tape_ready t = true -> bit v5 S_NOISE = false ->
  Z.land (Z.lor rew run) (2 ^ u) = 0 ->
  device_cmd (mkD STATUS v1 v2 false 0 v5 v6 0 v8 false v10 v11 v12 0 v14 v15 v16 v17 v18 v19 u v21 v22 rew run 0 v26 ts v28 v29 v30 []) 7 =
  Ok (mkD STATUS v1 v2 false 0 (sense1_7 t) 3 0 v8 false v10 7 false 8 v14 v15 false true v18 v19 u (-1) v22 rew run (drop 0 u) (drop v26 u)
     (upd ts (Z.to_nat u) (Some (tape_selected true t))) 0 v29 v30 [(CbTape, u)]).
Proof.
  intros U HN RD NZ RR. unfold device_cmd. change (Z.land 7 15) with 7. dred. change (0 =? 0) with true. change (7 =? 4) with false. rewrite NZ. change (bit 0 (S_VCR + S_LRCR)) with false.
  dred. replace (if if u =? v21 then true else false then false else false) with false by (destruct (u =? v21); reflexivity).
  unfold cmd_begin, unit_tape. dred.
  rewrite (proj2 (Z.ltb_ge u 0)) by lia. rewrite HN. dred. rewrite RD. rewrite RR. change (0 =? 0) with true. dred.
  cbn [Z.eqb Pos.eqb]. dred.
  assert (A : t_att (tape_selected true t) = true) by (unfold tape_ready in RD; apply andb_true_iff in RD; apply RD).
  unfold cmd_motion, sense1_7, sense1_of. dred. destruct (tape_ring t), (tape_at_loadpt t), (tape_9_track t); dred.
  all: match goal with |- context [bit ?x S_TUB] => change (bit x S_TUB) with false end; dred;
    unfold the_tape, unit_tape; dred; rewrite (proj2 (Z.ltb_ge u 0)) by lia; rewrite (nth_upd _ _ _ _ HN); dred; rewrite A; dred.
  all: change (Z.land 7 255) with 7; cbn [Z.eqb Pos.eqb]; dred; unfold cmd_end; dred; reflexivity.
Qed.
(** The rewind command: initial status channel end; the tape starts back, and the control is free again. *)
Lemma rewind_begins a pa s u t c k fuel junk : between u t s -> 0 <= u < 6 -> with_parity (Z.lor (Z.land a 248) u) = Ok pa -> on t c k ->
  exists s' t', seen a s (begin_op pa 7 ++ [Chan (out_tags false false false false false false false false false) 0 0; Fire fuel junk CbTape u]) = Ok (s', [], [8]) /\
    d_st s' = IDLE /\ d_pend s' = [(CbRew, u)] /\ d_run s' = d_run s /\ d_rew s' = put (d_rew s) u /\ d_rdyf s' = 0 /\
    nth_error (d_tapes s') (Z.to_nat u) = Some (Some t') /\ on t' c 0 /\ w_file (t_win t') = c.
Proof.
  intros R U W O.
  assert (UB : 0 <= Z.lor (Z.land a 248) u < 256) by (apply lor_byte; [rewrite Z.land_comm; apply land_le; lia|lia]).
  destruct (with_parity_ok _ UB) as (y & W' & _ & L & _). rewrite W in W'. injection W' as <-.
  destruct (addr_bits a u pa U L) as [L1 L2]. pose proof (parity_good _ _ UB W) as BP.
  destruct (with_parity_ok _ (land_byte a)) as (pz & WZ & _).
  destruct (start_rewind_on (tape_selected true t) c k O) as (w' & E & O' & F' & _).
  flat s. unfold between in R. fld R. destruct R as (-> & -> & -> & -> & -> & -> & NZ & -> & RR & -> & HN & RD).
  pose proof (nth_upd _ _ _ (tape_selected true t) HN) as HN1.
  assert (B2 : bad_parity 7 = Ok false) by reflexivity. assert (W0 : with_parity 8 = Ok 8) by reflexivity.
  unfold begin_op. cbn [app]. destruct v2.
  all: erewrite seen_chan by (unfold dev_step; dred; rewrite has_zero; dred; rewrite L1, Z.eqb_refl, BP; dred; change (0 =? 0) with true; dred; rewrite L2; unfold unit_addr; dred; rewrite W; dred; reflexivity).
  all: erewrite seen_chan by (unfold dev_step, unit_addr; dred; rewrite W; dred; reflexivity).
  all: erewrite seen_chan by (unfold dev_step; dred; rewrite WZ; dred; rewrite B2; dred; change (0 =? 0) with true; dred; change (Z.land 7 255) with 7;
    rewrite (cmd_rewind_flat _ _ _ _ _ _ _ _ _ _ _ _ _ _ _ _ _ _ _ _ _ _ _ _ t U HN RD NZ RR); reflexivity).
  all: erewrite seen_chan by (unfold dev_step; dred; rewrite W0; dred; reflexivity).
  all: erewrite seen_chan by (unfold dev_step; dred; rewrite W0; dred; change (7 =? 0) with false; dred; reflexivity).
  all: erewrite seen_chan by (unfold dev_step; dred; reflexivity).
  all: erewrite seen_fire by (unfold fire; dred; cbn [existsb remove_ev]; rewrite ev_same; dred; unfold tape_cb; dred; change (Z.land 7 15) with 7; cbn [Z.eqb Pos.eqb]; dred;
    unfold motion_part; dred; change (Z.land 7 255) with 7; cbn [Z.eqb Pos.eqb]; dred; unfold the_tape, unit_tape; dred; rewrite (proj2 (Z.ltb_ge u 0)) by lia; rewrite HN1; dred; rewrite E; cbn [fst]; dred; reflexivity).
  all: cbn [seen]; dred; do 2 eexists; split; [reflexivity|].
  all: cbn [d_st d_pend d_run d_rew d_rdyf d_tapes]; do 5 (split; [reflexivity|]); split; [eapply nth_upd; exact HN1|]; split; [exact O'|exact F'].
Qed.

(** The converter and the translator. *)
Lemma low_shift a b n : 0 <= n -> 0 <= b < 2 ^ n -> Z.lor (Z.shiftl a n) b = a * 2 ^ n + b.
Proof. intros N B. rewrite Z.lor_comm, lor_shift by lia. lia. Qed.
Lemma L3 x : Z.land x 3 = x mod 4.
Proof. exact (Z.land_ones x 2 ltac:(lia)). Qed.
Lemma L15 x : Z.land x 15 = x mod 16.
Proof. exact (Z.land_ones x 4 ltac:(lia)). Qed.
Lemma L63 x : Z.land x 63 = x mod 64.
Proof. exact (Z.land_ones x 6 ltac:(lia)). Qed.
Lemma conv_out0 b a : conv_out 0 b a = (1, a mod 4, a / 4).
Proof. unfold conv_out. cbn [Z.eqb]. rewrite L3, Z.shiftr_div_pow2 by lia. reflexivity. Qed.
Lemma conv_out1 b a : 0 <= b < 4 -> 0 <= a < 256 -> conv_out 1 b a = (2, a mod 16, b * 16 + a / 16).
Proof.
  intros B A. unfold conv_out. cbn [Z.eqb Pos.eqb]. rewrite !L15, Z.shiftr_div_pow2 by lia. change (2 ^ 4) with 16.
  assert (0 <= a / 16 < 16) by (split; [apply Z.div_pos; lia|apply Z.div_lt_upper_bound; lia]).
  rewrite (Z.mod_small (a / 16) 16) by lia. rewrite (Z.mod_small (Z.shiftl b 4)) by (rewrite Z.shiftl_mul_pow2 by lia; lia). rewrite low_shift by (try change (2 ^ 4) with 16; lia). reflexivity.
Qed.
Lemma conv_out2 b a : 0 <= b < 16 -> 0 <= a < 256 -> conv_out 2 b a = (3, a mod 64, b * 4 + a / 64).
Proof.
  intros B A. unfold conv_out. cbn [Z.eqb Pos.eqb]. rewrite !L63, !L3, Z.shiftr_div_pow2 by lia. change (2 ^ 6) with 64.
  assert (0 <= a / 64 < 4) by (split; [apply Z.div_pos; lia|apply Z.div_lt_upper_bound; lia]).
  rewrite (Z.mod_small (a / 64) 4) by lia. rewrite (Z.mod_small (Z.shiftl b 2)) by (rewrite Z.shiftl_mul_pow2 by lia; lia). rewrite low_shift by (try change (2 ^ 2) with 4; lia). reflexivity.
Qed.
Lemma conv_out3 b a : 0 <= b < 64 -> snd (conv_out 3 b a) = b.
Proof. intros B. cbn. apply Z.mod_small. lia. Qed.
Lemma conv_write_pack a b c x : 0 <= a < 256 -> 0 <= b < 256 -> 0 <= c < 256 -> conv_write 0 0 [a; b; c; x] = pack a b c.
Proof.
  intros A B C. cbn [conv_write]. rewrite conv_out0, conv_out1 by (try apply Z.mod_pos_bound; lia). rewrite conv_out2 by (try apply Z.mod_pos_bound; lia).
  pose proof (conv_out3 (c mod 64) x (Z.mod_pos_bound c 64 ltac:(lia))) as E. destruct (conv_out 3 (c mod 64) x) as [[? ?] y]. cbn [snd] in E. subst y. reflexivity.
Qed.
Lemma conv_read_pack a b c : 0 <= a < 256 -> 0 <= b < 256 -> 0 <= c < 256 ->
  exists x y z, conv_read 0 0 (pack a b c) = [x; y; z] /\
    x + 256 * y + 65536 * z = a / 4 + 64 * (a mod 4 * 16 + b / 16) + 4096 * (b mod 16 * 4 + c / 64) + 262144 * (c mod 64).
Proof.
  intros A B C. unfold pack.
  assert (R0 : 0 <= a / 4 < 64) by (split; [apply Z.div_pos; lia|apply Z.div_lt_upper_bound; lia]).
  assert (R1 : 0 <= a mod 4 * 16 + b / 16 < 64).
  { pose proof (Z.mod_pos_bound a 4 ltac:(lia)). assert (0 <= b / 16 < 16) by (split; [apply Z.div_pos; lia|apply Z.div_lt_upper_bound; lia]). lia. }
  assert (R2 : 0 <= b mod 16 * 4 + c / 64 < 64).
  { pose proof (Z.mod_pos_bound b 16 ltac:(lia)). assert (0 <= c / 64 < 4) by (split; [apply Z.div_pos; lia|apply Z.div_lt_upper_bound; lia]). lia. }
  assert (R3 : 0 <= c mod 64 < 64) by (apply Z.mod_pos_bound; lia).
  set (c0 := a / 4) in *. set (c1 := a mod 4 * 16 + b / 16) in *. set (c2 := b mod 16 * 4 + c / 64) in *. set (c3 := c mod 64) in *. clearbody c0 c1 c2 c3. clear A B C a b c.
  unfold conv_read, conv_in. cbn [Z.eqb Pos.eqb app]. change 255 with (Z.ones 8). rewrite !Z.land_ones by lia. change (2 ^ 8) with 256.
  rewrite (lor_shift c0 c1 6) by lia. change (2 ^ 6) with 64. rewrite !Z.shiftr_div_pow2 by lia. change (2 ^ 8) with 256.
  assert (Q1 : 0 <= (c0 + c1 * 64) / 256 < 16) by (split; [apply Z.div_pos; lia|apply Z.div_lt_upper_bound; lia]).
  rewrite (lor_shift _ c2 4) by (change (2 ^ 4) with 16; lia). change (2 ^ 4) with 16.
  assert (Q2 : 0 <= ((c0 + c1 * 64) / 256 + c2 * 16) / 256 < 4) by (split; [apply Z.div_pos; lia|apply Z.div_lt_upper_bound; lia]).
  rewrite (lor_shift _ c3 2) by (change (2 ^ 2) with 4; lia). change (2 ^ 2) with 4.
  do 3 eexists. split; [reflexivity|].
  rewrite (Z.mod_small (((c0 + c1 * 64) / 256 + c2 * 16) / 256 + c3 * 4)) by lia.
  pose proof (Z.div_mod (c0 + c1 * 64) 256 ltac:(lia)). pose proof (Z.div_mod ((c0 + c1 * 64) / 256 + c2 * 16) 256 ltac:(lia)). lia.
Qed.
Lemma seven_no_frames fuel junk s u s' : nine s = Ok false -> d_data_end s = false -> write_part fuel junk s u = Ok s' -> d_tapes s' = d_tapes s.
Proof.
  intros N D. unfold write_part. rewrite D. destruct (negb (d_data_rdy s)); [|intros E; injection E as <-; reflexivity].
  change (nine (set_sense0 _ s)) with (nine s). rewrite N. cbn [bind negb].
  intros E. revert E. match goal with |- bind ?r _ = _ -> _ => destruct r as [s1| |] eqn:E1 end; cbn [bind]; try discriminate. intros E. injection E as <-. cbn [d_tapes add_ev set_pend].
  revert E1. destruct (bit _ M_TRANS), (bit _ M_CONV); try (destruct (conv_out _ _ _) as [[? ?] ?]); (match goal with |- bind ?r _ = _ -> _ => destruct r end); cbn [bind]; try discriminate; intros E1; injection E1 as <-; reflexivity.
Qed.
Lemma six_parity_sweep d : 0 <= d < 256 -> exists b, six_parity d = Ok b /\ odd_bits 7 b = false /\
  exists p, tab parity_table (Z.land b 63) = Ok p /\ Z.lxor p (Z.land b 64) = 0.
Proof.
  intros D. pose proof (sweep 256 (fun d => match six_parity d with Ok b => negb (odd_bits 7 b) && match tab parity_table (Z.land b 63) with Ok p => Z.lxor p (Z.land b 64) =? 0 | _ => false end | _ => false end)
    ltac:(vm_compute; reflexivity) d D) as X. cbn beta in X. destruct (six_parity d) as [b| |]; try discriminate X. apply andb_true_iff in X. destruct X as [X1 X2]. exists b. split; [reflexivity|]. split; [apply negb_true_iff; exact X1|].
  destruct (tab parity_table (Z.land b 63)) as [p| |]; try discriminate X2. exists p. split; [reflexivity|apply Z.eqb_eq; exact X2].
Qed.
Lemma seven_parity d b s s' : 0 <= d < 256 -> six_parity d = Ok b -> d_data s = b -> read7 s = Ok s' -> odd7 b = false /\ d_sense0 s' = S_DCCHK /\ d_sense3 s' = S_VCR.
Proof.
  intros D E H. destruct (six_parity_sweep d D) as (b' & E' & O & p & TP & X). rewrite E in E'. injection E' as <-. unfold read7. rewrite H, TP. cbn [bind]. rewrite X. cbn [Z.eqb].
  intros R. split; [exact O|]. revert R. cbn [d_mode7 set_data set_sense3 set_sense0 d_data].
  destruct (bit (d_mode7 s) M_TRANS); [destruct (tab bcd_to_ebcdic _); cbn [bind]; try discriminate|cbn [bind]]; cbn [d_mode7 set_data set_sense3 set_sense0];
    (destruct (bit (d_mode7 s) M_CONV); [destruct (conv_in _ _ _) as [[[? ?] ?] r]; destruct r|]); intros R; injection R as <-; split; reflexivity.
Qed.
Lemma trans_back c e : 0 <= c < 64 -> tab bcd_to_ebcdic c = Ok e -> (tab bcd_to_ebcdic (Z.land (trans_out e) 63) = Ok e <-> c mod 16 <> 0 /\ c mod 16 <> 10).
Proof.
  intros C E. pose proof (sweep 64 (fun c => match tab bcd_to_ebcdic c with Ok e => match tab bcd_to_ebcdic (Z.land (trans_out e) 63) with Ok x => Bool.eqb (x =? e) (negb (c mod 16 =? 0) && negb (c mod 16 =? 10)) | _ => false end | _ => false end)
    ltac:(vm_compute; reflexivity) c C) as X. cbn beta in X. rewrite E in X. destruct (tab bcd_to_ebcdic (Z.land (trans_out e) 63)) as [x| |]; try discriminate X.
  apply Bool.eqb_prop in X. split.
  - intros H. injection H as ->. rewrite Z.eqb_refl in X. symmetry in X. apply andb_true_iff in X. destruct X as [X1 X2]. split; intros K; rewrite K in *; discriminate.
  - intros [H1 H2]. apply Z.eqb_neq in H1, H2. rewrite H1, H2 in X. apply Z.eqb_eq in X. congruence.
Qed.

(** What the properties say about executions. *)
Lemma free_inv l0 : six_drives l0 -> inv (fun _ => None) (init_dev l0).
Proof. intros D. apply inv_init; [exact D|]. intros u f E. discriminate E. Qed.
Lemma run_defined a l0 l : six_drives l0 -> Forall (six_units a) l -> run a (init_dev l0) l <> UB.
Proof.
  intros D F E. pose proof (ok_run (fun _ => None) a l (init_dev l0) (free_inv l0 D) F ltac:(intros u N; contradiction N; reflexivity)) as X. rewrite E in X. exact X.
Qed.
Lemma chan_defined a l0 l s t bo bi : six_drives l0 -> Forall (six_units a) (l ++ [Chan t bo bi]) -> run a (init_dev l0) l = Ok s ->
  dev_step a s t bo bi <> UB /\ forall s' t' bi', dev_step a s t bo bi = Ok (s', t', bi') -> bi' = bi \/ odd9 bi'.
Proof.
  intros D F E. apply Forall_app in F. destruct F as [F1 F2].
  pose proof (ok_run (fun _ => None) a l (init_dev l0) (free_inv l0 D) F1 ltac:(intros u N; contradiction N; reflexivity)) as X. rewrite E in X. cbn [okr] in X.
  pose proof (ok_chan _ a s t bo bi X (Forall_inv F2)) as Y. pose proof (chan_odd a s t bo bi) as O.
  split; [intros K; rewrite K in Y; exact Y|]. intros s' t' bi' K. rewrite K in O. exact O.
Qed.
Lemma protected_file a l0 l u t f s t' : six_drives l0 -> Forall (six_units a) l -> 0 <= u < 6 ->
  nth_error l0 (Z.to_nat u) = Some (Some t) -> w_ro (t_win t) = true -> w_file (t_win t) = f -> Forall (not_loaded u) l ->
  run a (init_dev l0) l = Ok s -> nth_error (d_tapes s) (Z.to_nat u) = Some (Some t') -> w_file (t_win t') = f.
Proof.
  intros D F U N R W NL E N'. set (p := fun v => if v =? u then Some f else None).
  assert (I0 : inv p (init_dev l0)).
  { apply inv_init; [exact D|]. intros v g. unfold p. destruct (Z.eqb_spec v u) as [->|]; [|discriminate]. intros X. injection X as <-. exists t. split; [exact N|]. split; assumption. }
  pose proof (ok_run p a l (init_dev l0) I0 F) as X. rewrite E in X. cbn [okr] in X.
  assert (I : inv p s). { apply X. intros v. unfold p. destruct (Z.eqb_spec v u) as [->|]; [intros _; exact NL|intros K; contradiction K; reflexivity]. }
  destruct I as ((_ & T) & _). destruct (T u _ U N') as (t2 & E2 & (_ & _ & P)). injection E2 as <-. unfold prot_ok, p in P. rewrite Z.eqb_refl in P. apply P.
Qed.
Lemma has_drop f u : 0 <= u -> has (drop f u) u = false.
Proof.
  intros U. unfold has, drop. rewrite <- Z.land_assoc, (Z.land_comm (Z.lnot _)), Z.land_lnot_diag, Z.land_0_r. reflexivity.
Qed.
Lemma has_put f u : 0 <= u -> has (put f u) u = true.
Proof.
  intros U. unfold has, put. apply negb_true_iff, Z.eqb_neq. intros E. apply (f_equal (fun z => Z.testbit z u)) in E.
  rewrite Z.land_spec, Z.lor_spec, Z.pow2_bits_true, Z.bits_0 in E by lia. rewrite orb_true_r in E. discriminate E.
Qed.
Lemma run_no_bit rew r u : Z.land (Z.lor rew r) (2 ^ u) = 0 -> has r u = false.
Proof.
  intros H. unfold has. rewrite Z.land_lor_distr_l in H. apply Z.lor_eq_0_iff in H. rewrite (proj2 H). reflexivity.
Qed.
Lemma rewind_done a pa s u t c k fuel junk : between u t s -> 0 <= u < 6 -> with_parity (Z.lor (Z.land a 248) u) = Ok pa -> on t c k ->
  exists s1, seen a s (begin_op pa 7 ++ [Chan (out_tags false false false false false false false false false) 0 0; Fire fuel junk CbTape u]) = Ok (s1, [], [SNS_CHNEND]) /\ d_st s1 = IDLE /\
  exists m s2 t2, run a s1 (repeat (Fire fuel junk CbRew u) m) = Ok s2 /\ d_pend s2 = [] /\ nth_error (d_tapes s2) (Z.to_nat u) = Some (Some t2) /\
    tape_at_loadpt t2 = true /\ on t2 c 0 /\ w_file (t_win t2) = c /\ has (d_rew s2) u = false /\ has (d_rdyf s2) u = true.
Proof.
  intros B U W O. destruct (rewind_begins a pa s u t c k fuel junk B U W O) as (s1 & t1 & S1 & I1 & P1 & R1 & RW1 & RF1 & N1 & O1 & F1).
  exists s1. split; [exact S1|]. split; [exact I1|].
  destruct (rew_all a fuel junk u ltac:(lia) (Z.to_nat (t_frame t1)) s1 t1 ltac:(lia) N1 ltac:(apply O1) P1) as (m & s2 & t2 & R & N2 & P2 & RW2 & H & _).
  assert (HR : has (d_run s1) u = false) by (rewrite R1; apply (run_no_bit (d_rew s)), B).
  destruct (H HR) as (W2 & A2 & LP & _ & _ & RD). exists m, s2, t2. split; [exact R|]. split; [exact P2|]. split; [exact N2|]. split; [exact LP|].
  split; [unfold on, bytes_on, at_byte in *; rewrite W2; destruct O1 as (_ & O1); split; [exact A2|exact O1]|]. split; [rewrite W2; exact F1|].
  rewrite RW2, (RD (or_introl I1)). split; [apply has_drop; lia|apply has_put; lia].
Qed.
Lemma unload_done a fuel junk u s t : 0 <= u -> nth_error (d_tapes s) (Z.to_nat u) = Some (Some t) -> t_att t = true -> d_pend s = [(CbRew, u)] -> has (d_run s) u = true ->
  exists m s' t', run a s (repeat (Fire fuel junk CbRew u) m) = Ok s' /\ d_pend s' = [] /\ nth_error (d_tapes s') (Z.to_nat u) = Some (Some t') /\ t_att t' = false /\ has (d_run s') u = false.
Proof.
  intros U N A P HR. destruct (rew_all a fuel junk u U (Z.to_nat (t_frame t)) s t ltac:(lia) N A P) as (m & s2 & t2 & R & N2 & P2 & RW2 & _ & H).
  destruct (H HR) as (A2 & RN & _). exists m, s2, t2. repeat (split; [assumption|]). rewrite RN. apply has_drop. exact U.
Qed.
Lemma first_address a pa s u t : between u t s -> 0 <= u < 6 -> with_parity (Z.lor (Z.land a 248) u) = Ok pa ->
  exists s' t', dev_step a s (out_tags true true false false false false false false false) pa 0 = Ok (s', t', pa) /\ opri t' = true /\ d_st s' = INIT_SEL /\ d_cur s' = u.
Proof.
  intros R U W.
  assert (UB : 0 <= Z.lor (Z.land a 248) u < 256) by (apply lor_byte; [rewrite Z.land_comm; apply land_le; lia|lia]).
  destruct (with_parity_ok _ UB) as (y & W' & _ & L & _). rewrite W in W'. injection W' as <-.
  destruct (addr_bits a u pa U L) as [L1 L2]. pose proof (parity_good _ _ UB W) as BP.
  flat s. unfold between in R. fld R. destruct R as (-> & -> & -> & -> & -> & -> & NZ & -> & RR & -> & HN & RD).
  destruct v2; (do 2 eexists; split; [unfold dev_step; dred; rewrite has_zero; dred; rewrite L1, Z.eqb_refl, BP; dred; change (0 =? 0) with true; dred; rewrite L2; unfold unit_addr; dred; rewrite W; dred; reflexivity|repeat split]).
Qed.

(** Executions for the examples about tags: the device keeps its tags. *)
Definition carry (t t1 : tags) : tags := set_opri (opri t) (set_adri (adri t) (set_stai (stai t) (set_srvi (srvi t) t1))).
Fixpoint drive (a : Z) (s : dev) (t : tags) (l : list act) : res (dev * tags) :=
  match l with
  | [] => Ok (s, t)
  | Chan t1 bo bi :: r => let* (s1, t2, _) := dev_step a s (carry t t1) bo bi in drive a s1 t2 r
  | Fire fuel junk k u :: r => let* s1 := fire fuel junk s k u in drive a s1 t r
  | Key u k :: r => let* s1 := do_key s u k in drive a s1 t r
  end.
Definition tame (x : act) : bool := match x with Chan t1 bo _ => negb (cmdo t1 && Z.testbit bo 4) && (opro t1 || supo t1) | _ => true end.
Lemma conn_drive any a l0 : forall l s t s' t', any \/ forallb tame l = true -> conn any a l0 s t -> drive a s t l = Ok (s', t') -> conn any a l0 s' t'.
Proof.
  induction l as [|x l IH]; cbn [drive]; intros s t s' t' H C E; [injection E as <- <-; exact C|].
  assert (H1 : any \/ forallb tame l = true) by (destruct H as [H|H]; [left; exact H|right; cbn in H; apply andb_true_iff in H; apply H]).
  destruct x as [t1 bo bi|fuel junk k u|u k].
  - destruct (dev_step a s (carry t t1) bo bi) as [[[s1 t2] b]| |] eqn:D; cbn [bind] in E; try discriminate E.
    apply (IH s1 t2 _ _ H1); [|exact E]. refine (conn_chan _ _ _ s t _ bo bi s1 t2 b C _ _ D); [destruct t, t1; reflexivity|].
    destruct H as [H|H]; [left; exact H|right]. cbn in H. apply andb_true_iff in H. destruct H as [H _]. apply andb_true_iff in H. destruct H as [H2 H3].
    destruct t, t1; cbn in *. split; [intros ->; cbn in H2; apply negb_true_iff; exact H2|]. intros [R1 R2] _. cbn in R1, R2. subst. discriminate H3.
  - destruct (fire fuel junk s k u) as [s1| |] eqn:D; cbn [bind] in E; try discriminate E. apply (IH s1 t _ _ H1); [|exact E]. apply (conn_fire _ _ _ s t fuel junk k u s1 C D).
  - destruct (do_key s u k) as [s1| |] eqn:D; cbn [bind] in E; try discriminate E. apply (IH s1 t _ _ H1); [|exact E]. apply (conn_key _ _ _ s t u k s1 C D).
Qed.
(** A read command under way without anything to wait for. *)
Lemma stuck_step a s : d_st s = OPR -> d_req s = false -> d_data_rdy s = false -> d_cmd_done s = false -> d_cmd s = 2 ->
  forall n, seen a s (repeat quiet n) = Ok (s, [], []).
Proof.
  intros H1 H2 H3 H4 H5. flat s. cbn in H1, H2, H3, H4, H5. subst. induction n as [|n IH]; [reflexivity|]. cbn [repeat]. unfold quiet at 1.
  erewrite seen_chan by (unfold dev_step; dred; change (Z.land 2 15 =? 4) with false; dred; reflexivity). rewrite IH. reflexivity.
Qed.
