(** The tape control: writing a mark and erasing a gap on a tape without a ring. *)
From Verif Require Export T2415.Proofs6.

Lemma cmd_mark_flat cmd v1 v2 v5 v6 v8 v10 v11 v12 v14 v15 v16 v17 v18 v19 u v21 v22 rew run v26 ts v28 v29 v30 t :
  cmd = 23 \/ cmd = 31 ->
  0 <= u < 6 -> nth_error ts (Z.to_nat u) = Some (Some t) -> tape_ready t = true -> bit v5 S_NOISE = false ->
  Z.land (Z.lor rew run) (2 ^ u) = 0 -> tape_ring t = false ->
  exists ts', nth_error ts' (Z.to_nat u) = Some (Some (tape_selected false t)) /\
  device_cmd (mkD STATUS v1 v2 false 0 v5 v6 0 v8 false v10 v11 v12 0 v14 v15 v16 v17 v18 v19 u v21 v22 rew run 0 v26 ts v28 v29 v30 []) cmd =
  Ok (mkD STATUS v1 v2 false S_CMDREJ (sense1_7 t) 3 0 v8 false v10 0 true 14 v14 v15 false true v18 v19 u (-1) v22 rew run (drop 0 u) (drop v26 u) ts' 0 v29 v30 []).
Proof.
  intros CM U HN RD NZ RR RG. unfold device_cmd.
  destruct CM as [-> | ->]; [change (Z.land 23 15) with 7; change (7 =? 4) with false|change (Z.land 31 15) with 15; change (15 =? 4) with false].
  all: dred; change (0 =? 0) with true; rewrite NZ; change (bit 0 (S_VCR + S_LRCR)) with false.
  all: dred; replace (if if u =? v21 then true else false then false else false) with false by (destruct (u =? v21); reflexivity).
  all: unfold cmd_begin, unit_tape; dred.
  all: rewrite (proj2 (Z.ltb_ge u 0)) by lia; rewrite HN; dred; rewrite RD; rewrite RR; change (0 =? 0) with true; dred.
  all: cbn [Z.eqb Pos.eqb]; dred.
  all: assert (A : t_att (tape_selected true t) = true) by (unfold tape_ready in RD; apply andb_true_iff in RD; apply RD).
  all: unfold cmd_motion, sense1_7, sense1_of; dred; rewrite RG; destruct (tape_at_loadpt t), (tape_9_track t); dred.
  all: match goal with |- context [bit ?x S_TUB] => change (bit x S_TUB) with false end; dred;
    unfold the_tape, unit_tape; dred; rewrite (proj2 (Z.ltb_ge u 0)) by lia; rewrite (nth_upd _ _ _ _ HN); dred; rewrite A; dred.
  all: change (Z.land 23 255) with 23; change (Z.land 31 255) with 31; cbn [Z.eqb Pos.eqb]; dred.
  all: change (tape_ring (tape_selected true t)) with (tape_ring t); rewrite RG; dred.
  all: unfold cmd_end, unit_tape; dred.
  all: change (Z.land S_CMDREJ (Z.lnot S_WCZERO) =? 0) with false; change (23 =? 4) with false; change (31 =? 4) with false; dred.
  all: rewrite (proj2 (Z.ltb_ge u 0)) by lia; rewrite (nth_upd _ _ _ _ HN); dred.
  all: eexists; split; [|reflexivity].
  all: eapply nth_upd; eapply nth_upd; exact HN.
Qed.
Lemma mark_refused a pa s u t cmd pc : (cmd = 23 /\ pc = 279) \/ (cmd = 31 /\ pc = 31) -> between u t s -> 0 <= u < 6 -> with_parity (Z.lor (Z.land a 248) u) = Ok pa ->
  tape_ring t = false ->
  exists s', seen a s (begin_op pa pc) = Ok (s', [], [14]) /\ d_sense0 s' = S_CMDREJ /\ d_pend s' = [] /\ nth_error (d_tapes s') (Z.to_nat u) = Some (Some (tape_selected false t)).
Proof.
  intros CM R U W H.
  assert (UB : 0 <= Z.lor (Z.land a 248) u < 256) by (apply lor_byte; [rewrite Z.land_comm; apply land_le; lia|lia]).
  destruct (with_parity_ok _ UB) as (y & W' & _ & L & _). rewrite W in W'. injection W' as <-.
  destruct (addr_bits a u pa U L) as [L1 L2]. pose proof (parity_good _ _ UB W) as BP.
  destruct (with_parity_ok _ (land_byte a)) as (pz & WZ & _).
  flat s. unfold between in R. fld R. destruct R as (-> & -> & -> & -> & -> & -> & NZ & -> & RR & -> & HN & RD).
  assert (B2 : bad_parity pc = Ok false) by (destruct CM as [[_ ->]|[_ ->]]; reflexivity). assert (W0 : with_parity 14 = Ok 14) by reflexivity.
  assert (CC : Z.land pc 255 = cmd) by (destruct CM as [[-> ->]|[-> ->]]; reflexivity).
  assert (CM' : cmd = 23 \/ cmd = 31) by tauto.
  pose proof (fun v1 v2 v22 => cmd_mark_flat cmd v1 v2 v5 v6 v8 v10 v11 v12 v14 v15 v16 v17 v18 v19 u v21 v22 v23 v24 v26 v27 v28 v29 v30 t CM' U HN RD NZ RR H) as DC.
  unfold begin_op. destruct v2.
  all: erewrite seen_chan by (unfold dev_step; dred; rewrite has_zero; dred; rewrite L1, Z.eqb_refl, BP; dred; change (0 =? 0) with true; dred; rewrite L2; unfold unit_addr; dred; rewrite W; dred; reflexivity).
  all: erewrite seen_chan by (unfold dev_step, unit_addr; dred; rewrite W; dred; reflexivity).
  all: match goal with |- context [mkD COMMAND true ?v2 false 0 _ _ 0 _ false _ _ _ 0 _ _ _ _ _ _ ?u0 _ ?v22 _ _ _ _ _ _ _ _ _] => destruct (DC true false v22) as (ts' & HT & DC') end.
  all: erewrite seen_chan by (unfold dev_step; dred; rewrite WZ; dred; rewrite B2; dred; change (0 =? 0) with true; dred; rewrite CC; rewrite DC'; reflexivity).
  all: erewrite seen_chan by (unfold dev_step; dred; rewrite W0; dred; reflexivity).
  all: erewrite seen_chan by (unfold dev_step; dred; rewrite W0; dred; reflexivity).
  all: cbn [seen]; dred; eexists; split; [reflexivity|]; cbn [d_sense0 d_pend d_tapes]; auto.
Qed.
