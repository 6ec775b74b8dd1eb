(** The tape control: spacing forward over a block or a file. *)
From Verif Require Export T2415.Proofs7.

Lemma cmd_space_flat cmd v1 v2 v5 v6 v8 v10 v11 v12 v14 v15 v16 v17 v18 v19 u v21 v22 rew run v26 ts v28 v29 v30 t t1 r :
  cmd = 55 \/ cmd = 63 ->
  0 <= u < 6 -> nth_error ts (Z.to_nat u) = Some (Some t) -> tape_ready t = true -> bit v5 S_NOISE = false ->
  Z.land (Z.lor rew run) (2 ^ u) = 0 -> tape_read_forw (tape_selected true t) = Ok (t1, r) -> not_error r = true ->
  device_cmd (mkD STATUS v1 v2 false 0 v5 v6 0 v8 false v10 v11 v12 0 v14 v15 v16 v17 v18 v19 u v21 v22 rew run 0 v26 ts v28 v29 v30 []) cmd =
  Ok (mkD STATUS v1 v2 false 0 (sense1_7 t) 3 0 v8 false v10 cmd false 8 v14 v15 false true v18 v19 u (-1) v22 rew run (drop 0 u) (drop v26 u)
     (upd (upd ts (Z.to_nat u) (Some (tape_selected true t))) (Z.to_nat u) (Some t1)) 0 v29 v30 [(CbTape, u)]).
Proof.
  intros CM U HN RD NZ RR E1 NE. unfold device_cmd.
  destruct CM as [-> | ->]; [change (Z.land 55 15) with 7; change (7 =? 4) with false|change (Z.land 63 15) with 15; change (15 =? 4) with false].
  all: dred; change (0 =? 0) with true; rewrite NZ; change (bit 0 (S_VCR + S_LRCR)) with false.
  all: dred; replace (if if u =? v21 then true else false then false else false) with false by (destruct (u =? v21); reflexivity).
  all: unfold cmd_begin, unit_tape; dred.
  all: rewrite (proj2 (Z.ltb_ge u 0)) by lia; rewrite HN; dred; rewrite RD; rewrite RR; change (0 =? 0) with true; dred.
  all: cbn [Z.eqb Pos.eqb]; dred.
  all: assert (A : t_att (tape_selected true t) = true) by (unfold tape_ready in RD; apply andb_true_iff in RD; apply RD).
  all: unfold cmd_motion, sense1_7, sense1_of; dred; destruct (tape_ring t), (tape_at_loadpt t), (tape_9_track t); dred.
  all: match goal with |- context [bit ?x S_TUB] => change (bit x S_TUB) with false end; dred;
    unfold the_tape, unit_tape; dred; rewrite (proj2 (Z.ltb_ge u 0)) by lia; rewrite (nth_upd _ _ _ _ HN); dred; rewrite A; dred.
  all: change (Z.land 55 255) with 55; change (Z.land 63 255) with 63; cbn [Z.eqb Pos.eqb]; dred; rewrite E1; dred; rewrite NE; dred; unfold cmd_end; dred; reflexivity.
Qed.

(** The drive is spacing: what does not change from s0 on. *)
Definition gliding (u c : Z) (t : tape) (s0 s : dev) : Prop :=
  nth_error (d_tapes s) (Z.to_nat u) = Some (Some t) /\ d_pend s = [(CbTape, u)] /\ d_cmd s = c /\ d_status s = d_status s0 /\
  d_sense0 s = d_sense0 s0 /\ d_st s = d_st s0 /\ d_rdyf s = d_rdyf s0.
Lemma space_begins a pa s u t cmd pc t1 r : (cmd = 55 /\ pc = 55) \/ (cmd = 63 /\ pc = 319) -> between u t s -> 0 <= u < 6 -> with_parity (Z.lor (Z.land a 248) u) = Ok pa ->
  tape_read_forw (tape_selected true t) = Ok (t1, r) -> not_error r = true ->
  exists s', seen a s (begin_op pa pc ++ [Chan (out_tags false false false false false false false false false) 0 0]) = Ok (s', [], [8]) /\
    gliding u cmd t1 s' s' /\ d_st s' = IDLE /\ d_status s' = 0 /\ d_sense0 s' = 0 /\ d_rdyf s' = 0.
Proof.
  intros CM R U W E1 NE.
  assert (UB : 0 <= Z.lor (Z.land a 248) u < 256) by (apply lor_byte; [rewrite Z.land_comm; apply land_le; lia|lia]).
  destruct (with_parity_ok _ UB) as (y & W' & _ & L & _). rewrite W in W'. injection W' as <-.
  destruct (addr_bits a u pa U L) as [L1 L2]. pose proof (parity_good _ _ UB W) as BP.
  destruct (with_parity_ok _ (land_byte a)) as (pz & WZ & _).
  flat s. unfold between in R. fld R. destruct R as (-> & -> & -> & -> & -> & -> & NZ & -> & RR & -> & HN & RD).
  pose proof (nth_upd _ _ _ (tape_selected true t) HN) as HN1.
  assert (B2 : bad_parity pc = Ok false) by (destruct CM as [[_ ->]|[_ ->]]; reflexivity). assert (W0 : with_parity 8 = Ok 8) by reflexivity.
  assert (CC : Z.land pc 255 = cmd) by (destruct CM as [[-> ->]|[-> ->]]; reflexivity).
  assert (C0 : (cmd =? 0) = false) by (destruct CM as [[-> _]|[-> _]]; reflexivity).
  assert (CM' : cmd = 55 \/ cmd = 63) by tauto.
  unfold begin_op. cbn [app]. destruct v2.
  all: erewrite seen_chan by (unfold dev_step; dred; rewrite has_zero; dred; rewrite L1, Z.eqb_refl, BP; dred; change (0 =? 0) with true; dred; rewrite L2; unfold unit_addr; dred; rewrite W; dred; reflexivity).
  all: erewrite seen_chan by (unfold dev_step, unit_addr; dred; rewrite W; dred; reflexivity).
  all: erewrite seen_chan by (unfold dev_step; dred; rewrite WZ; dred; rewrite B2; dred; change (0 =? 0) with true; dred; rewrite CC;
    rewrite (cmd_space_flat cmd _ _ _ _ _ _ _ _ _ _ _ _ _ _ _ _ _ _ _ _ _ _ _ _ t t1 r CM' U HN RD NZ RR E1 NE); reflexivity).
  all: erewrite seen_chan by (unfold dev_step; dred; rewrite W0; dred; reflexivity).
  all: erewrite seen_chan by (unfold dev_step; dred; rewrite W0; dred; rewrite C0; dred; reflexivity).
  all: erewrite seen_chan by (unfold dev_step; dred; reflexivity).
  all: cbn [seen]; dred; eexists; split; [reflexivity|].
  all: unfold gliding; cbn [d_st d_pend d_cmd d_status d_sense0 d_rdyf d_tapes]; split; [|repeat split].
  all: split; [eapply nth_upd; exact HN1|repeat split].
Qed.

Lemma fire_space u c s fuel junk : d_pend s = [(CbTape, u)] -> c = 55 \/ c = 63 -> d_cmd s = c -> fire fuel junk s CbTape u = space_part fuel junk (set_pend [] s) u.
Proof.
  intros P C E. unfold fire. rewrite P. cbn [existsb remove_ev]. rewrite ev_same. cbn [orb]. unfold tape_cb, motion_part. change (d_cmd (set_pend [] s)) with (d_cmd s). rewrite E.
  destruct C as [-> | ->]; reflexivity.
Qed.
Lemma glide_frame u c t t' b s0 s fuel junk : 0 <= u -> c = 55 \/ c = 63 -> gliding u c t s0 s -> tape_read_frame t (d_data s) = Ok (t', SOk, b) ->
  exists s', fire fuel junk s CbTape u = Ok s' /\ gliding u c t' s0 s'.
Proof.
  intros U C G RF. destruct G as (HN & P & CC & G1 & G2 & G3 & G4). rewrite (fire_space u c) by assumption. unfold space_part, the_tape, unit_tape.
  rewrite (proj2 (Z.ltb_ge u 0)) by lia. change (d_tapes (set_pend [] s)) with (d_tapes s). rewrite HN. cbn [bind]. change (d_data (set_pend [] s)) with (d_data s). rewrite RF. cbn [bind].
  eexists. split; [reflexivity|]. split; [eapply nth_upd; exact HN|]. repeat split; assumption.
Qed.
(** What is left when the tape has come to rest. *)
Definition at_rest (u : Z) (t : tape) (x : Z) (s0 s : dev) : Prop :=
  nth_error (d_tapes s) (Z.to_nat u) = Some (Some t) /\ d_pend s = [(CbDone, u)] /\ Z.land (d_cmd s) 3 = 3 /\ d_status s = Z.lor (d_status s0) x /\
  d_sense0 s = d_sense0 s0 /\ d_st s = d_st s0 /\ d_rdyf s = d_rdyf s0.
Lemma glide_block u t t2 s0 s fuel junk : 0 <= u -> gliding u 55 t s0 s -> (forall d, tape_read_frame t d = Ok (t, SEob, d)) ->
  tape_finish_rec fuel junk t = Ok (t2, SOk) -> tape_at_loadpt t2 = false ->
  exists s', fire fuel junk s CbTape u = Ok s' /\ at_rest u t2 0 s0 s'.
Proof.
  intros U G RF FI LP. destruct G as (HN & P & CC & G1 & G2 & G3 & G4). rewrite (fire_space u 55) by auto. unfold space_part, the_tape, unit_tape.
  rewrite (proj2 (Z.ltb_ge u 0)) by lia. change (d_tapes (set_pend [] s)) with (d_tapes s). rewrite HN. cbn [bind]. rewrite RF. cbn [bind]. rewrite FI. cbn [bind]. rewrite LP.
  match goal with |- context [bit (d_cmd ?x) 8] => change (d_cmd x) with (d_cmd s) end. rewrite CC. change (bit 55 8) with false. cbv iota.
  eexists. split; [reflexivity|]. split; [eapply nth_upd, nth_upd; exact HN|]. split; [reflexivity|]. split; [change (Z.land (d_cmd s) 3 = 3); rewrite CC; reflexivity|].
  split; [rewrite Z.lor_0_r; exact G1|]. repeat split; assumption.
Qed.
Lemma glide_next u t t2 t3 r3 s0 s fuel junk : 0 <= u -> gliding u 63 t s0 s -> (forall d, tape_read_frame t d = Ok (t, SEob, d)) ->
  tape_finish_rec fuel junk t = Ok (t2, SOk) -> tape_at_loadpt t2 = false -> tape_read_forw t2 = Ok (t3, r3) ->
  exists s', fire fuel junk s CbTape u = Ok s' /\ (r3 = SOk -> gliding u 63 t3 s0 s') /\ (r3 = SMark -> at_rest u t3 0 s0 s').
Proof.
  intros U G RF FI LP RN. destruct G as (HN & P & CC & G1 & G2 & G3 & G4). rewrite (fire_space u 63) by auto. unfold space_part, the_tape, unit_tape.
  rewrite (proj2 (Z.ltb_ge u 0)) by lia. change (d_tapes (set_pend [] s)) with (d_tapes s). rewrite HN. cbn [bind]. rewrite RF. cbn [bind]. rewrite FI. cbn [bind]. rewrite LP.
  match goal with |- context [bit (d_cmd ?x) 8] => change (d_cmd x) with (d_cmd s) end. rewrite CC. change (bit 63 8) with true. change (bit 63 16) with true. cbv iota. rewrite RN. cbn [bind].
  destruct r3; (eexists; split; [reflexivity|]); split; intros N; try discriminate N.
  - split; [eapply nth_upd, nth_upd, nth_upd; exact HN|]. repeat split; assumption.
  - split; [eapply nth_upd, nth_upd, nth_upd; exact HN|]. split; [reflexivity|]. split; [change (Z.land (d_cmd s) 3 = 3); rewrite CC; reflexivity|]. split; [rewrite Z.lor_0_r; exact G1|]. repeat split; assumption.
Qed.
Lemma glide_mark u c t t2 r2 s0 s fuel junk : 0 <= u -> c = 55 \/ c = 63 -> gliding u c t s0 s -> (forall d, tape_read_frame t d = Ok (t, SMark, d)) ->
  tape_finish_rec fuel junk t = Ok (t2, r2) ->
  exists s', fire fuel junk s CbTape u = Ok s' /\ at_rest u t2 (if c =? 55 then SNS_UNITEXP else 0) s0 s'.
Proof.
  intros U C G RF FI. destruct G as (HN & P & CC & G1 & G2 & G3 & G4). rewrite (fire_space u c) by assumption. unfold space_part, the_tape, unit_tape.
  rewrite (proj2 (Z.ltb_ge u 0)) by lia. change (d_tapes (set_pend [] s)) with (d_tapes s). rewrite HN. cbn [bind]. rewrite RF. cbn [bind]. rewrite FI. cbn [bind].
  match goal with |- context [bit (d_cmd ?x) 8] => change (d_cmd x) with (d_cmd s) end. rewrite CC.
  destruct C as [-> | ->]; [change (bit 55 8) with false|change (bit 63 8) with true]; cbv iota; cbn [negb Z.eqb Pos.eqb].
  all: eexists; split; [reflexivity|]; split; [eapply nth_upd, nth_upd; exact HN|]; split; [reflexivity|].
  all: split; [change (Z.land (d_cmd s) 3 = 3); rewrite CC; reflexivity|].
  - split; [change (Z.lor (d_status s) SNS_UNITEXP = Z.lor (d_status s0) SNS_UNITEXP); rewrite G1; reflexivity|]. repeat split; assumption.
  - split; [rewrite Z.lor_0_r; exact G1|]. repeat split; assumption.
Qed.
Lemma rest_done u t x s0 s fuel junk : 0 <= u -> at_rest u t x s0 s ->
  exists s', fire fuel junk s CbDone u = Ok s' /\ nth_error (d_tapes s') (Z.to_nat u) = Some (Some t) /\ d_pend s' = [] /\
    d_status s' = Z.lor (Z.lor (d_status s0) x) SNS_DEVEND /\ d_sense0 s' = d_sense0 s0 /\ d_st s' = d_st s0 /\ has (d_rdyf s') u = true.
Proof.
  intros U (HN & P & C & S1 & S2 & S3 & S4). unfold fire. rewrite P. cbn [existsb remove_ev]. rewrite ev_same. cbn [orb]. unfold done_cb.
  match goal with |- context [Z.land (d_cmd ?x) 3] => change (d_cmd x) with (d_cmd s) end. rewrite C. change (3 =? 3) with true. cbv iota zeta.
  eexists. split; [reflexivity|]. split; [exact HN|]. split; [reflexivity|]. split; [change (Z.lor (d_status s) SNS_DEVEND = Z.lor (Z.lor (d_status s0) x) SNS_DEVEND); rewrite S1; reflexivity|].
  split; [exact S2|]. split; [exact S3|apply has_put; exact U].
Qed.

(** *** Blocks and files *)
Lemma run_app a l1 : forall s l2 s1, run a s l1 = Ok s1 -> run a s (l1 ++ l2) = run a s1 l2.
Proof. induction l1 as [|x l1 IH]; intros s l2 s1 H; cbn [run app] in *; [injection H as <-; reflexivity|]. destruct (astep a s x) as [s2| |]; cbn [bind] in *; try discriminate H. apply IH. exact H. Qed.
Lemma glide_frames a u cmd s0 c N fuel junk : 0 <= u -> cmd = 55 \/ cmd = 63 -> forall m t k s, mid c t k m N -> gliding u cmd t s0 s ->
  exists s' t', run a s (repeat (Fire fuel junk CbTape u) m) = Ok s' /\ gliding u cmd t' s0 s' /\ mid c t' (k + m) 0 N /\ alike t t' /\ t_bot t' = t_bot t.
Proof.
  intros U C. induction m as [|m IH]; intros t k s M G; cbn [repeat run].
  - exists s, t. rewrite Nat.add_0_r. split; [reflexivity|]. split; [exact G|]. split; [exact M|]. split; [repeat split|reflexivity].
  - destruct (frame_step c t k m N (d_data s) M) as (t1 & b & NB & E & M1 & _ & AL & B1).
    destruct (glide_frame u cmd t t1 b s0 s fuel junk U C G E) as (s1 & F1 & G1). cbn [astep]. rewrite F1. cbn [bind].
    destruct (IH t1 (S k) s1 M1 G1) as (s' & t' & R & G' & M' & AL' & B'). exists s', t'. split; [exact R|]. split; [exact G'|].
    split; [rewrite Nat.add_succ_r; exact M'|]. split; [eapply alike_trans; eassumption|congruence].
Qed.
Lemma mid_rec f pre d post t1 : let c := pre ++ encode1 f (Rec d) ++ post in tap_like f -> good_item f (Rec d) -> on t1 c (length pre + 4) -> t_fmt t1 = f ->
  t_func t1 = FRead -> t_mark t1 = false -> t_parity t1 = false -> t_lrecl t1 = 0 -> t_orecl t1 = Z.of_nat (length d) -> mid c t1 (length pre + 4) (length d) (length d).
Proof.
  intros c TL G O1 F1 FU MK PA LR OR. destruct (pad_encode f d TL) as (p & Ep & Lp & _).
  assert (Ec : c = (pre ++ le32 (Z.of_nat (length d))) ++ d ++ (p ++ le32 (Z.of_nat (length d)) ++ post)) by (unfold c; rewrite Ep, <- !app_assoc; reflexivity).
  assert (GL : Z.of_nat (length d) < 4294967295) by (destruct G as [_ G2]; destruct TL as [-> | ->]; apply G2).
  assert (Lc : (length pre + 4 + length d + pad f (length d) + 4 <= length c)%nat) by (rewrite Ec, !app_length, !le32_length, Lp; lia).
  unfold mid. rewrite F1, OR, LR. repeat split; auto; try apply O1; lia.
Qed.
(** One block has been passed, and the head is behind it. *)
Lemma pass_rec a u cmd s0 s f pre d post t fuel junk : let c := pre ++ encode1 f (Rec d) ++ post in 0 <= u -> cmd = 55 \/ cmd = 63 -> tap_like f -> good_item f (Rec d) ->
  mid c t (length pre + 4) (length d) (length d) -> t_fmt t = f -> t_bot t = false -> gliding u cmd t s0 s ->
  exists s' t' t2, run a s (repeat (Fire fuel junk CbTape u) (length d)) = Ok s' /\ gliding u cmd t' s0 s' /\ (forall x, tape_read_frame t' x = Ok (t', SEob, x)) /\
    tape_finish_rec fuel junk t' = Ok (t2, SOk) /\ tape_at_loadpt t2 = false /\ on t2 c (length pre + length (encode1 f (Rec d))) /\ alike t t2.
Proof.
  intros c U C TL G M F B GL. destruct (glide_frames a u cmd s0 c _ fuel junk U C _ _ _ _ M GL) as (s' & t' & R & G' & M' & AL & B').
  pose proof (fun x => frame_end c t' _ _ x M') as FE. pose proof M' as (O & TF & FU & MK & PA & L0 & L1 & L2 & L3 & LC).
  destruct (finish_tap t' c _ 0 fuel junk (length d) O TF FU MK PA L0 L2 L1 L3 LC ltac:(lia)) as (t2 & E & O' & AL2 & BT & _).
  exists s', t', t2. split; [exact R|]. split; [exact G'|]. split; [exact FE|]. split; [exact E|]. split; [unfold tape_at_loadpt; congruence|].
  split; [|eapply alike_trans; eassumption]. rewrite encode1_tap_len by exact TL. assert (F2 : t_fmt t' = f) by (destruct AL as [-> _]; exact F). rewrite F2 in O'.
  replace (length pre + (4 + length d + pad f (length d) + 4))%nat with (length pre + 4 + length d + 0 + pad f (length d) + 4)%nat by lia. exact O'.
Qed.
Lemma glide_file a u f fuel junk s0 post : 0 <= u -> tap_like f -> forall l d pre t s, let c := pre ++ encode f (Rec d :: map Rec l ++ [Mark]) ++ post in
  Forall (fun x => good_item f (Rec x)) (d :: l) -> mid c t (length pre + 4) (length d) (length d) -> t_fmt t = f -> t_bot t = false -> t_eot t = false -> gliding u 63 t s0 s ->
  exists n s' t', run a s (repeat (Fire fuel junk CbTape u) n) = Ok s' /\ at_rest u t' 0 s0 s' /\ on t' c (length pre + length (encode f (Rec d :: map Rec l ++ [Mark]))).
Proof.
  intros U TL. induction l as [|d2 l IH]; intros d pre t s c GI M F B ET GL; inversion GI as [|? ? GI1 GI2]; subst.
  - assert (Ec : c = pre ++ encode1 (t_fmt t) (Rec d) ++ (encode1 (t_fmt t) Mark ++ post)) by (unfold c, encode; cbn [map app flat_map]; rewrite app_nil_r, <- !app_assoc; reflexivity).
    rewrite Ec in M. destruct (pass_rec a u 63 s0 s _ pre d _ t fuel junk U (or_intror eq_refl) TL GI1 M eq_refl B GL) as (s1 & t1 & t2 & R1 & G1 & FE & FI & LP & O2 & AL).
    rewrite app_assoc in O2. rewrite <- app_length in O2.
    destruct (read_forw_mark t2 (t_fmt t) _ post O2 TL) as (t3 & E3 & O3 & AL3 & B3 & MK); [apply AL|destruct AL as (_ & _ & -> & _); exact ET|].
    destruct (glide_next u t1 t2 t3 SMark s0 s1 fuel junk U G1 FE FI LP E3) as (s2 & F2 & _ & A2). specialize (A2 eq_refl).
    exists (length d + 1)%nat, s2, t3. split; [rewrite repeat_app; erewrite run_app by exact R1; cbn [repeat run astep]; rewrite F2; reflexivity|]. split; [exact A2|].
    rewrite <- app_assoc, <- Ec in O3. rewrite app_length in O3. unfold encode. cbn [map app flat_map]. rewrite app_nil_r, app_length, Nat.add_assoc.
    replace (length (encode1 (t_fmt t) Mark)) with 4%nat by (destruct TL as [-> | ->]; reflexivity). exact O3.
  - assert (Ec : c = pre ++ encode1 (t_fmt t) (Rec d) ++ (encode (t_fmt t) (Rec d2 :: map Rec l ++ [Mark]) ++ post)) by (unfold c, encode; cbn [map app flat_map]; rewrite <- !app_assoc; reflexivity).
    pose proof M as M0. rewrite Ec in M. destruct (pass_rec a u 63 s0 s _ pre d _ t fuel junk U (or_intror eq_refl) TL GI1 M eq_refl B GL) as (s1 & t1 & t2 & R1 & G1 & FE & FI & LP & O2 & AL).
    rewrite app_assoc in O2. rewrite <- app_length in O2. inversion GI2 as [|? ? GI3 GI4]; subst.
    assert (Ed : encode (t_fmt t) (Rec d2 :: map Rec l ++ [Mark]) ++ post = encode1 (t_fmt t) (Rec d2) ++ (encode (t_fmt t) (map Rec l ++ [Mark]) ++ post)) by (unfold encode; cbn [flat_map]; rewrite <- app_assoc; reflexivity).
    pose proof O2 as O2'. rewrite Ed in O2'.
    destruct (read_forw_rec t2 (t_fmt t) _ d2 _ O2' TL) as (t3 & E3 & O3 & AL3 & B3 & FU & MK & PA & LR & OR); [apply AL|destruct AL as (_ & _ & -> & _); exact ET|exact GI3|].
    assert (F3 : t_fmt t3 = t_fmt t) by (destruct AL3 as [-> _]; apply AL).
    pose proof (mid_rec (t_fmt t) _ d2 _ t3 TL GI3 O3 F3 FU MK PA LR OR) as M3. cbv zeta in M3. rewrite <- Ed in M3.
    destruct (glide_next u t1 t2 t3 SOk s0 s1 fuel junk U G1 FE FI LP E3) as (s2 & F2 & A2 & _). specialize (A2 eq_refl).
    destruct (IH d2 (pre ++ encode1 (t_fmt t) (Rec d)) t3 s2) as (n & s3 & t4 & R3 & A3 & O4).
    + exact GI2.
    + exact M3.
    + exact F3.
    + exact B3.
    + destruct AL3 as (_ & _ & -> & _). destruct AL as (_ & _ & -> & _). exact ET.
    + exact A2.
    + exists (length d + (1 + n))%nat, s3, t4. split; [rewrite repeat_app; erewrite run_app by exact R1; cbn [repeat run astep Nat.add]; rewrite F2; cbn [bind]; exact R3|]. split; [exact A3|].
      rewrite <- app_assoc in O4. rewrite <- Ec in O4. rewrite app_length in O4. unfold encode at 1. cbn [map app flat_map]. rewrite app_length, Nat.add_assoc. exact O4.
Qed.
(** The command and the callbacks, as they follow one another. *)
Lemma space_file_ok a pa s u t f l pre post fuel junk : let c := pre ++ encode f (map Rec l ++ [Mark]) ++ post in
  between u t s -> 0 <= u < 6 -> with_parity (Z.lor (Z.land a 248) u) = Ok pa -> tap_like f -> on t c (length pre) -> t_fmt t = f -> t_eot t = false ->
  Forall (fun d => good_item f (Rec d)) l ->
  exists s1, seen a s (begin_op pa 319 ++ [Chan (out_tags false false false false false false false false false) 0 0]) = Ok (s1, [], [8]) /\ d_st s1 = IDLE /\
  exists n s2 t2, run a s1 (repeat (Fire fuel junk CbTape u) n ++ [Fire fuel junk CbDone u]) = Ok s2 /\ d_pend s2 = [] /\ d_st s2 = IDLE /\ d_sense0 s2 = 0 /\
    d_status s2 = SNS_DEVEND /\ has (d_rdyf s2) u = true /\ nth_error (d_tapes s2) (Z.to_nat u) = Some (Some t2) /\
    on t2 c (length pre + length (encode f (map Rec l ++ [Mark]))).
Proof.
  intros c BT U W TL O F ET GI. assert (U0 : 0 <= u) by lia.
  assert (FIN : forall s1 n s' t', d_st s1 = IDLE -> d_status s1 = 0 -> d_sense0 s1 = 0 -> run a s1 (repeat (Fire fuel junk CbTape u) n) = Ok s' -> at_rest u t' 0 s1 s' ->
    on t' c (length pre + length (encode f (map Rec l ++ [Mark]))) ->
    exists n s2 t2, run a s1 (repeat (Fire fuel junk CbTape u) n ++ [Fire fuel junk CbDone u]) = Ok s2 /\ d_pend s2 = [] /\ d_st s2 = IDLE /\ d_sense0 s2 = 0 /\
    d_status s2 = SNS_DEVEND /\ has (d_rdyf s2) u = true /\ nth_error (d_tapes s2) (Z.to_nat u) = Some (Some t2) /\
    on t2 c (length pre + length (encode f (map Rec l ++ [Mark])))).
  { intros s1 n s' t' I0 I1 I2 R A O'. destruct (rest_done u t' 0 s1 s' fuel junk U0 A) as (s2 & E & H1 & H2 & H3 & H4 & H5 & H6).
    exists n, s2, t'. split; [erewrite run_app by exact R; cbn [run astep]; rewrite E; reflexivity|]. split; [exact H2|]. split; [congruence|]. split; [congruence|].
    split; [rewrite H3, I1; reflexivity|]. split; [exact H6|]. split; [exact H1|exact O']. }
  destruct l as [|d l].
  - assert (Ec : c = pre ++ encode1 f Mark ++ post) by (unfold c, encode; cbn [map app flat_map]; rewrite app_nil_r; reflexivity).
    pose proof O as O0. rewrite Ec in O0. destruct (read_forw_mark (tape_selected true t) f pre post O0 TL F ET) as (t1 & E1 & O1 & AL & B1 & MK).
    destruct (space_begins a pa s u t 63 319 t1 SMark ltac:(auto) BT U W E1 eq_refl) as (s1 & S1 & G1 & I0 & I1 & I2 & I3).
    exists s1. split; [exact S1|]. split; [exact I0|].
    assert (RF : forall d, tape_read_frame t1 d = Ok (t1, SMark, d)) by (intros d; unfold tape_read_frame; rewrite (proj1 O1), MK; reflexivity).
    pose proof (finish_mark t1 fuel junk (proj1 O1) MK ltac:(destruct AL as [-> _]; rewrite <- F in TL; exact TL)) as FM.
    destruct (glide_mark u 63 t1 _ _ s1 s1 fuel junk U0 (or_intror eq_refl) G1 RF FM) as (s2 & E2 & A2).
    apply (FIN s1 1%nat s2 (set_mark (set_func t1 FNone) false) I0 I1 I2); [cbn [repeat run astep]; rewrite E2; reflexivity|exact A2|].
    rewrite <- Ec in O1. unfold encode. cbn [map app flat_map]. rewrite app_nil_r. replace (length (encode1 f Mark)) with 4%nat by (destruct TL as [-> | ->]; reflexivity). exact O1.
  - assert (Ec : c = pre ++ encode1 f (Rec d) ++ (encode f (map Rec l ++ [Mark]) ++ post)) by (unfold c, encode; cbn [map app flat_map]; rewrite <- !app_assoc; reflexivity).
    inversion GI as [|? ? GI1 GI2]; subst x l0. pose proof O as O0. rewrite Ec in O0.
    destruct (read_forw_rec (tape_selected true t) f pre d _ O0 TL F ET GI1) as (t1 & E1 & O1 & AL1 & B1 & FU & MK & PA & LR & OR).
    assert (F1 : t_fmt t1 = f) by (destruct AL1 as [-> _]; exact F).
    pose proof (mid_rec f pre d _ t1 TL GI1 O1 F1 FU MK PA LR OR) as M. cbv zeta in M. rewrite <- Ec in M.
    destruct (space_begins a pa s u t 63 319 t1 SOk ltac:(auto) BT U W E1 eq_refl) as (s1 & S1 & G1 & I0 & I1 & I2 & I3).
    exists s1. split; [exact S1|]. split; [exact I0|].
    destruct (glide_file a u f fuel junk s1 post U0 TL l d pre t1 s1 GI M F1 B1) as (n & s2 & t2 & R & A & O2); [destruct AL1 as (_ & _ & -> & _); exact ET|exact G1|].
    exact (FIN s1 n s2 t2 I0 I1 I2 R A O2).
Qed.
Lemma space_block_ok a pa s u t f x pre post fuel junk : let c := pre ++ encode1 f x ++ post in
  between u t s -> 0 <= u < 6 -> with_parity (Z.lor (Z.land a 248) u) = Ok pa -> tap_like f -> on t c (length pre) -> t_fmt t = f -> t_eot t = false -> good_item f x ->
  exists s1, seen a s (begin_op pa 55 ++ [Chan (out_tags false false false false false false false false false) 0 0]) = Ok (s1, [], [8]) /\ d_st s1 = IDLE /\
  exists s2 t2, run a s1 (repeat (Fire fuel junk CbTape u) (S (length (frames_of x))) ++ [Fire fuel junk CbDone u]) = Ok s2 /\ d_pend s2 = [] /\ d_st s2 = IDLE /\ d_sense0 s2 = 0 /\
    d_status s2 = match x with Rec _ => SNS_DEVEND | Mark => SNS_DEVEND + SNS_UNITEXP end /\ has (d_rdyf s2) u = true /\ nth_error (d_tapes s2) (Z.to_nat u) = Some (Some t2) /\
    on t2 c (length pre + length (encode1 f x)).
Proof.
  intros c BT U W TL O F ET GI. assert (U0 : 0 <= u) by lia. destruct x as [d|].
  - destruct (read_forw_rec (tape_selected true t) f pre d _ O TL F ET GI) as (t1 & E1 & O1 & AL1 & B1 & FU & MK & PA & LR & OR).
    assert (F1 : t_fmt t1 = f) by (destruct AL1 as [-> _]; exact F).
    pose proof (mid_rec f pre d _ t1 TL GI O1 F1 FU MK PA LR OR) as M. cbv zeta in M.
    destruct (space_begins a pa s u t 55 55 t1 SOk ltac:(auto) BT U W E1 eq_refl) as (s1 & S1 & G1 & I0 & I1 & I2 & I3).
    exists s1. split; [exact S1|]. split; [exact I0|].
    destruct (pass_rec a u 55 s1 s1 f pre d post t1 fuel junk U0 (or_introl eq_refl) TL GI M F1 B1 G1) as (s2 & t2 & t3 & R & G2 & FE & FI & LP & O3 & _).
    destruct (glide_block u t2 t3 s1 s2 fuel junk U0 G2 FE FI LP) as (s3 & E3 & A3).
    destruct (rest_done u t3 0 s1 s3 fuel junk U0 A3) as (s4 & E & H1 & H2 & H3 & H4 & H5 & H6).
    exists s4, t3. cbn [frames_of]. replace (S (length d)) with (length d + 1)%nat by lia. rewrite repeat_app, <- app_assoc.
    split; [erewrite run_app by exact R; cbn [repeat app run astep]; rewrite E3; cbn [bind]; rewrite E; reflexivity|]. split; [exact H2|]. split; [congruence|]. split; [congruence|].
    split; [rewrite H3, I1; reflexivity|]. split; [exact H6|]. split; [exact H1|exact O3].
  - destruct (read_forw_mark (tape_selected true t) f pre post O TL F ET) as (t1 & E1 & O1 & AL & B1 & MK).
    destruct (space_begins a pa s u t 55 55 t1 SMark ltac:(auto) BT U W E1 eq_refl) as (s1 & S1 & G1 & I0 & I1 & I2 & I3).
    exists s1. split; [exact S1|]. split; [exact I0|].
    assert (RF : forall d, tape_read_frame t1 d = Ok (t1, SMark, d)) by (intros d; unfold tape_read_frame; rewrite (proj1 O1), MK; reflexivity).
    pose proof (finish_mark t1 fuel junk (proj1 O1) MK ltac:(destruct AL as [-> _]; rewrite <- F in TL; exact TL)) as FM.
    destruct (glide_mark u 55 t1 _ _ s1 s1 fuel junk U0 (or_introl eq_refl) G1 RF FM) as (s3 & E3 & A3).
    destruct (rest_done u _ _ s1 s3 fuel junk U0 A3) as (s4 & E & H1 & H2 & H3 & H4 & H5 & H6).
    exists s4, (set_mark (set_func t1 FNone) false). cbn [frames_of length repeat app run astep]. rewrite E3. cbn [bind]. rewrite E. split; [reflexivity|].
    split; [exact H2|]. split; [congruence|]. split; [congruence|]. split; [rewrite H3, I1; reflexivity|]. split; [exact H6|]. split; [exact H1|].
    replace (length (encode1 f Mark)) with 4%nat by (destruct TL as [-> | ->]; reflexivity). exact O1.
Qed.

(** A tape for the examples. *)
Definition two_files : list Z := encode TAP ([Rec [7; 8]; Rec [9; 10]] ++ [Mark]) ++ encode TAP [Rec [5; 6]].
