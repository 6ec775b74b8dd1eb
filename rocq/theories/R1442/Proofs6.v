(** The card reader and punch: decks. *)
From Verif Require Import R1442.Spec2 R1442.Proofs R1442.Proofs2 R1442.Proofs3 R1442.Proofs4 R1442.Proofs5.

(** What a feed leaves alone. *)
Definition bus (s : dev) := (d_st s, d_sel s, d_req s, d_stk s, (d_disc s, d_busy s, d_cmd s, d_cmd_done s), (d_status s, d_data s, d_data_rdy s, d_data_end s), (d_eof s, d_pend s, d_stk_sel s)).
Lemma bus_eq s s' : bus s' = bus s -> d_st s' = d_st s /\ d_sel s' = d_sel s /\ d_req s' = d_req s /\ d_stk s' = d_stk s /\ d_disc s' = d_disc s /\ d_busy s' = d_busy s /\ d_cmd s' = d_cmd s /\
  d_cmd_done s' = d_cmd_done s /\ d_status s' = d_status s /\ d_data s' = d_data s /\ d_data_rdy s' = d_data_rdy s /\ d_data_end s' = d_data_end s /\ d_eof s' = d_eof s /\ d_pend s' = d_pend s /\ d_stk_sel s' = d_stk_sel s.
Proof. unfold bus. intros H. injection H as -> -> -> -> -> -> -> -> -> -> -> -> -> -> ->. repeat split. Qed.
Lemma hopper_len c : ctx_ok c -> hopper_size c = Z.of_nat (length (unread c)).
Proof. intros O. rewrite (unread_length c O). unfold hopper_size, ctx_ok in *. lia. Qed.
(** A feed with a card in the hopper. *)
Lemma feed_next s img r : cards_ok s -> unread (d_feed s) = img :: r -> d_stop s = false ->
  exists s', do_feed s = Ok s' /\ bus s' = bus s /\ cards_ok s' /\ unread (d_feed s') = r /\ d_hop_cnt s' = Z.of_nat (length r) /\ d_rdr_full s' = true /\ d_rdr_card s' = img /\ d_rdr_col s' = 0 /\
    d_stop s' = false /\ d_rdy s' = negb ((length r =? 0)%nat && negb (d_eof s)) /\
    d_sense s' = (if d_rdy s' then Z.land (d_sense s) (Z.lnot S_INTERV) else Z.lor (d_sense s) S_INTERV) /\
    (d_pch_full s' = d_rdr_full s /\ (d_rdr_full s = true -> d_pch_card s' = d_rdr_card s) /\ (d_pch_full s = true -> d_pch_col s' = 0) /\ (d_pch_full s = false -> d_pch_col s' = d_pch_col s) /\
     stacked (if d_stk_sel s then d_stack1 s' else d_stack0 s') = stacked (if d_stk_sel s then d_stack1 s else d_stack0 s) ++ (if d_pch_full s then [d_pch_card s] else []) /\
     (if d_stk_sel s then d_stack0 s' else d_stack1 s') = (if d_stk_sel s then d_stack0 s else d_stack1 s)).
Proof.
  intros OK U ST. pose proof OK as ((F1 & F2) & K0 & K1 & R & P). pose proof (hopper_len _ F1) as HL. rewrite U in HL. cbn [length] in HL. rewrite U in F2. inversion F2 as [|? ? CI CR]; subst.
  destruct (read_card_ok (d_feed s) img r F1 U CI) as (f & RC & FO & FU & _). pose proof (hopper_len _ FO) as HL'. rewrite FU in HL'.
  destruct s as [v0 v1 v2 v3 v4 v5 v6 v7 v8 v9 v10 v11 v12 v13 v14 v15 v16 v17 v18 v19 v20 v21 v22 v23 v24 v25 v26 v27 v28 v29].
  cbn [d_feed d_stack0 d_stack1 d_rdr_card d_pch_card d_stop] in *. subst v28.
  unfold do_feed. cbn [d_feed]. replace (hopper_size v15 =? 0) with false by lia. cbn [andb].
  assert (E0 : (Z.of_nat (length r) =? 0) = (length r =? 0)%nat) by (destruct r; reflexivity).
  assert (FG : ctx_good f) by (split; [exact FO|rewrite FU; exact CR]).
  destruct v24; cbn [d_pch_full d_stk_sel d_pch_card d_stack0 d_stack1].
  - destruct v25.
    + destruct (stack_good _ _ K1 P) as (c & -> & G & SE). cbn [bind]. destruct v20; nrm; cbn [negb]; rewrite RC; cbn [bind fst snd]; nrm; rewrite HL', E0;
      (destruct ((length r =? 0)%nat && negb v27) eqn:B; (eexists; split; [reflexivity|]); (split; [reflexivity|]); (split; [unfold cards_ok; cbn; auto 10|]); cbn; rewrite ?B, ?app_nil_r; repeat (split; [first [reflexivity|assumption]|]); repeat split; congruence).
    + destruct (stack_good _ _ K0 P) as (c & -> & G & SE). cbn [bind]. destruct v20; nrm; cbn [negb]; rewrite RC; cbn [bind fst snd]; nrm; rewrite HL', E0;
      (destruct ((length r =? 0)%nat && negb v27) eqn:B; (eexists; split; [reflexivity|]); (split; [reflexivity|]); (split; [unfold cards_ok; cbn; auto 10|]); cbn; rewrite ?B, ?app_nil_r; repeat (split; [first [reflexivity|assumption]|]); repeat split; congruence).
  - cbn [bind]. destruct v20; nrm; cbn [negb]; rewrite RC; cbn [bind fst snd]; nrm; rewrite HL', E0;
      destruct v25; (destruct ((length r =? 0)%nat && negb v27) eqn:B; (eexists; split; [reflexivity|]); (split; [reflexivity|]); (split; [unfold cards_ok; cbn; auto 10|]); cbn; rewrite ?B, ?app_nil_r; repeat (split; [first [reflexivity|assumption]|]); repeat split; congruence).
Qed.
(** The read command. *)
Definition is_read (c : Z) : Prop := c = 2 \/ c = 34.
Lemma cmd_read cm v1 v2 v4 v6 v7 v8 v10 v11 v12 v13 v14 v15 v16 v17 v18 v19 v20 v21 v22 v23 v24 v25 v27 v28 : is_read cm ->
  device_cmd (mkD STATUS v1 v2 false v4 false v6 v7 v8 0 v10 v11 v12 v13 v14 v15 v16 v17 v18 v19 v20 v21 v22 v23 v24 v25 true v27 v28 []) cm =
  mkD STATUS v1 v2 false v4 true (Z.land v6 64) cm false 0 v10 false false v13 false v15 v16 v17 v18 v19 v20 v21 v22 v23 v24 (cm =? 34) true v27 v28 [CbRead].
Proof. intros [->| ->]; reflexivity. Qed.
Section Dialogue.
  Variables a pa : Z.
  Hypothesis A : is_byte a.
  Hypothesis PA : with_parity a = Ok pa.
  Lemma a_low : Z.land a 255 = a. Proof. exact (land_id a A). Qed.
  Lemma PA' : with_parity (Z.land a 255) = Ok pa. Proof. rewrite a_low. exact PA. Qed.
  Lemma pa_low : Z.land pa 255 = Z.land a 255.
  Proof. rewrite a_low. destruct (with_parity_ok a A) as (y & E & _ & L & _). rewrite PA in E. injection E as <-. exact L. Qed.
  Lemma pa_good : bad_parity pa = Ok false. Proof. exact (parity_good a pa A PA). Qed.

  Lemma start_read cm pc v2 v4 v6 v7 v8 v10 v11 v12 v13 v14 v15 v16 v17 v18 v19 v20 v21 v22 v23 v24 v25 v27 v28 bi : is_read cm -> with_parity cm = Ok pc ->
    exists b', talk a (start_io pa pc) (mkD IDLE false v2 false v4 false v6 v7 v8 0 v10 v11 v12 v13 v14 v15 v16 v17 v18 v19 v20 v21 v22 v23 v24 v25 true v27 v28 []) free bi =
      Ok (rd_dev cm false true (Z.land v6 64) v10 v13 false v15 v16 v17 v18 v19 v20 v21 v22 v23 v24 (cm =? 34) true v27 v28, rd_tags, b', [0], []).
  Proof.
    intros C PC. pose proof pa_low as LA. pose proof pa_good as GA. pose proof PA' as PA1. assert (B : is_byte cm) by (destruct C; subst; split; [discriminate|reflexivity|discriminate|reflexivity]).
    pose proof (parity_good cm pc B PC) as GC. destruct (w_byte cm B) as (y & E & LC). rewrite PC in E. injection E as <-. destruct (w_byte 0 ltac:(split; [discriminate|reflexivity])) as (w & EW & LW).
    assert (C0 : (cm =? 0) = false) by (destruct C; subst; reflexivity).
    eexists. unfold start_io, ask, free. cbn [app]. st r_select. st r_init. st r_command. rewrite LC, (cmd_read cm) by exact C. st r_status. st r_accept_opr. apply talk_nil. all: ends ltac:(rewrite ?LW).
  Qed.
  Lemma end_read cm req disc sense data post fd feed k0 k1 c full hop pc pcol pf stk rdy eof stop bi : is_read cm ->
    exists b', talk a ([EFire CbRead] ++ take_end) (rd_dev cm req disc sense data post fd feed k0 k1 c 80 full hop pc pcol pf stk rdy eof stop) rd_tags bi =
      Ok (mkD IDLE false false false disc true sense cm false 0 data false true post fd feed k0 k1 c 80 full hop pc pcol pf stk rdy eof stop [CbFeed], free, b', [8], []).
  Proof.
    intros C. assert (C4 : (cm =? 4) = false) by (destruct C; subst; reflexivity). destruct (w_byte 8 ltac:(split; [discriminate|reflexivity])) as (w & EW & LW).
    eexists. cbn [app]. eapply talk_fire; [reflexivity|]. nrm. change (Z.lor 0 SNS_CHNEND) with 8. unfold take_end, rd_tags. st r_opr_end. st r_end_status. st r_end_accept. st r_wait. apply talk_nil. all: ends ltac:(rewrite ?LW).
  Qed.
  (** The status is taken after a feed. *)
  Lemma request s bi w st : d_st s = IDLE -> d_req s = true -> d_busy s = false -> d_status s = st -> (st =? 0) = false -> d_cmd_done s = true -> with_parity st = Ok w -> Z.land w 255 = st ->
    exists b', talk a take_request s free bi = Ok (set_st IDLE (set_sel false (set_busy false (set_cmd 0 (set_cmd_done false (set_post false (set_data_end false (set_stk false (set_status 0 (set_req false (set_disc false s)))))))))), free, b', [st], []).
  Proof.
    intros H1 H2 H3 H4 H5 H6 H7 H8. pose proof PA' as PA1. assert (RQ : forall s, d_req s = true -> d_req s || d_stk s = true) by (intros x ->; reflexivity).
    assert (G0 : bad_parity 256 = Ok false) by reflexivity.
    destruct s as [v0 v1 v2 v3 v4 v5 v6 v7 v8 v9 v10 v11 v12 v13 v14 v15 v16 v17 v18 v19 v20 v21 v22 v23 v24 v25 v26 v27 v28 v29]. cbn [d_st d_req d_busy d_status d_cmd_done] in *. subst.
    eexists. unfold take_request, free. st r_ask. st r_poll. st r_init. st r_command_keep. st r_status. eapply talk_cyc; [eapply r_accept_done; side | nrm | | ]. st r_wait. apply talk_nil. all: ends ltac:(rewrite ?H8).
  Qed.

  Definition inv (h : Z) : bool := match hol_to_ebcdic h with Ok d => d =? 256 | _ => false end.
  Lemma inv_invalid h : 0 <= h < 4096 -> (inv h = true <-> invalid h).
  Proof.
    intros H. unfold inv, invalid. destruct (hol_table_inverse h H) as (d & E & [->|[R I]]); rewrite E.
    - split; [intros _|reflexivity]. intros x X N. destruct (ebcdic_inverse x X) as (h' & _ & I1 & I2). unfold ebcdic_to_hol in I1. assert (h' = h) by congruence. subst h'. rewrite E in I2. injection I2 as <-. lia.
    - split; [intros D; apply Z.eqb_eq in D; lia|]. intros N. destruct (N d R I).
  Qed.
  Lemma inv_card c : is_card c -> (existsb inv c = true <-> Exists invalid c).
  Proof.
    intros [_ F]. split.
    - intros H. apply existsb_exists in H. destruct H as (x & IN & X). apply Exists_exists. exists x. split; [exact IN|]. rewrite Forall_forall in F. apply (inv_invalid x (F x IN)). exact X.
    - intros H. apply Exists_exists in H. destruct H as (x & IN & X). apply existsb_exists. exists x. split; [exact IN|]. rewrite Forall_forall in F. apply (inv_invalid x (F x IN)). exact X.
  Qed.
  Lemma sense_inv l : forall x, sense_of x l = if existsb inv l then Z.lor x 8 else x.
  Proof.
    induction l as [|h l IH]; intros x; [reflexivity|]. cbn [sense_of existsb]. rewrite IH. unfold inv at 2. destruct (hol_to_ebcdic h) as [d| |]; try reflexivity. destruct (d =? 256); [|reflexivity]. cbn [orb].
    destruct (existsb inv l); [|reflexivity]. rewrite <- Z.lor_assoc. reflexivity.
  Qed.
  Lemma clear_interv x b : Z.land (if b : bool then Z.lor (Z.land x 64) 8 else Z.land x 64) (Z.lnot S_INTERV) = if b then 8 else 0.
  Proof.
    assert (E : Z.land (Z.land x 64) (Z.lnot S_INTERV) = 0) by (rewrite <- Z.land_assoc; apply Z.land_0_r).
    destruct b; [rewrite Z.land_lor_distr_l, E; reflexivity|exact E].
  Qed.
  Lemma read_one c c2 cs s cm pc bi : deck c (c2 :: cs) s -> cs <> [] \/ d_eof s = true -> is_read cm -> with_parity cm = Ok pc ->
    exists s' b' es, talk a (read_whole pa pc) s free bi = Ok (s', free, b', [0; 8; if existsb inv c then 6 else 4], es) /\ Forall2 column_byte c es /\ deck c2 cs s' /\ d_eof s' = d_eof s /\
      d_pch_full s' = true /\ d_pch_card s' = c /\ d_sense s' = (if existsb inv c then S_DATCHK else 0).
  Proof.
    intros (I1 & I2 & I3 & I4 & I5 & I6 & I7 & I8 & I9 & I10 & I11 & I12 & I13 & I14 & I15) NE C PC. assert (CB : bit cm 1 = false) by (destruct C; subst; reflexivity).
    pose proof I15 as (_ & _ & _ & [CL CF] & _).
    destruct s as [v0 v1 v2 v3 v4 v5 v6 v7 v8 v9 v10 v11 v12 v13 v14 v15 v16 v17 v18 v19 v20 v21 v22 v23 v24 v25 v26 v27 v28 v29].
    cbn [d_st d_sel d_req d_stk d_disc d_busy d_status d_pend d_rdy d_stop d_rdr_full d_rdr_card d_rdr_col d_feed d_hop_cnt d_eof] in *. subst v0 v1 v2 v3 v5 v9 v18 v19 v20 v21 v26 v28 v29.
    destruct (start_read cm pc false v4 v6 v7 v8 v10 v11 v12 v13 v14 v15 v16 v17 c 0 true (Z.of_nat (length (c2 :: cs))) v22 v23 v24 v25 v27 false bi C PC) as [b1 E1].
    destruct (columns a cm v13 false v15 v16 v17 c true (Z.of_nat (length (c2 :: cs))) v22 v23 v24 (cm =? 34) true v27 false CB c 0 false true (Z.land v6 64) v10 b1 eq_refl CL CF) as (r2 & i2 & d2 & b2 & es & E2 & F2). rewrite CL in E2. change (Z.of_nat 0) with 0 in E2.
    destruct (end_read cm r2 i2 (sense_of (Z.land v6 64) c) d2 v13 false v15 v16 v17 c true (Z.of_nat (length (c2 :: cs))) v22 v23 v24 (cm =? 34) true v27 false b2 C) as [b3 E3].
    set (s3 := feed_flags (mkD IDLE false false false i2 true (sense_of (Z.land v6 64) c) cm false 0 d2 false true v13 false v15 v16 v17 c 80 true (Z.of_nat (length (c2 :: cs))) v22 v23 v24 (cm =? 34) true v27 false [])).
    assert (OK3 : cards_ok s3) by exact I15.
    destruct (feed_next s3 c2 cs OK3 I13 eq_refl) as (s4 & F4 & B4 & OK4 & U4 & H4 & RF4 & RC4 & RL4 & ST4 & RY4 & SE4 & PF4 & PC4 & _).
    assert (RY : d_rdy s4 = true) by (rewrite RY4; change (d_eof s3) with v27; destruct cs; [destruct NE as [NE|NE]; [congruence|rewrite NE; reflexivity]|reflexivity]). rewrite RY in SE4. change (d_sense s3) with (sense_of (Z.land v6 64) c) in SE4.
    rewrite sense_inv, clear_interv in SE4. apply bus_eq in B4. destruct B4 as (B1 & B2 & B3 & B5 & B6 & B7 & B8 & B9 & B10 & B11 & B12 & B13 & B14 & B15 & _).
    set (stt := if existsb inv c then 6 else 4). set (s5 := if d_sense s4 =? 0 then s4 else or_status SNS_UNITCHK s4).
    assert (F5 : fire (mkD IDLE false false false i2 true (sense_of (Z.land v6 64) c) cm false 0 d2 false true v13 false v15 v16 v17 c 80 true (Z.of_nat (length (c2 :: cs))) v22 v23 v24 (cm =? 34) true v27 false [CbFeed]) CbFeed = Ok s5).
    { change (feed_cb (mkD IDLE false false false i2 true (sense_of (Z.land v6 64) c) cm false 0 d2 false true v13 false v15 v16 v17 c 80 true (Z.of_nat (length (c2 :: cs))) v22 v23 v24 (cm =? 34) true v27 false []) = Ok s5).
      unfold feed_cb. fold s3. change (d_hop_cnt s3) with (Z.of_nat (length (c2 :: cs))). replace (Z.of_nat (length (c2 :: cs)) =? 0) with false by reflexivity. cbn [andb]. rewrite F4. reflexivity. }
    assert (P5 : d_st s5 = IDLE /\ d_req s5 = true /\ d_busy s5 = false /\ d_status s5 = stt /\ d_cmd_done s5 = true).
    { subst s5 stt. rewrite SE4. destruct (existsb inv c); cbn [Z.eqb]; cbn [d_st d_req d_busy d_status d_cmd_done or_status set_status]; rewrite B1, B3, B7, B9, B10; repeat split. }
    destruct P5 as (P1 & P2 & P3 & P4 & P6). assert (W : is_byte stt) by (subst stt; destruct (existsb inv c); split; try discriminate; reflexivity). destruct (w_byte _ W) as (w & EW & LW).
    destruct (request s5 b3 w stt P1 P2 P3 P4 ltac:(subst stt; destruct (existsb inv c); reflexivity) P6 EW LW) as [b6 E6].
    assert (G5 : forall X (f : dev -> X), f (or_status SNS_UNITCHK s4) = f s4 -> f s5 = f s4) by (intros X f FX; subst s5; destruct (d_sense s4 =? 0); [reflexivity|exact FX]).
    eexists; exists b6, es. split; [|split; [exact F2|split; [|split]]].
    - unfold read_whole. eapply talk_two; [exact E1| |reflexivity|rewrite app_nil_l; reflexivity].
      eapply talk_two; [exact E2| |rewrite app_nil_l; reflexivity|rewrite app_nil_r; reflexivity]. rewrite app_assoc. eapply talk_two; [exact E3| |reflexivity|reflexivity].
      cbn [app]. eapply talk_fire; [exact F5|]. exact E6.
    - unfold deck. cbn [d_st d_sel d_req d_stk d_busy d_status d_pend d_rdy d_stop d_rdr_full d_rdr_card d_rdr_col d_feed d_hop_cnt set_st set_sel set_busy set_cmd set_cmd_done set_post set_data_end set_stk set_status set_req set_disc].
      rewrite (G5 _ d_pend), (G5 _ d_rdy), (G5 _ d_stop), (G5 _ d_rdr_full), (G5 _ d_rdr_card), (G5 _ d_rdr_col), (G5 _ d_feed), (G5 _ d_hop_cnt) by reflexivity. repeat (split; [first [reflexivity|assumption]|]).
      unfold cards_ok. cbn [d_feed d_stack0 d_stack1 d_rdr_card d_pch_card set_st set_sel set_busy set_cmd set_cmd_done set_post set_data_end set_stk set_status set_req set_disc].
      rewrite (G5 _ d_stack0), (G5 _ d_stack1), (G5 _ d_rdr_card), (G5 _ d_feed), (G5 _ d_pch_card) by reflexivity. exact OK4.
    - cbn [d_eof set_st set_sel set_busy set_cmd set_cmd_done set_post set_data_end set_stk set_status set_req set_disc]. rewrite (G5 _ d_eof) by reflexivity. exact B14.
    - cbn [d_pch_full d_pch_card d_sense set_st set_sel set_busy set_cmd set_cmd_done set_post set_data_end set_stk set_status set_req set_disc]. rewrite (G5 _ d_pch_full), (G5 _ d_pch_card), (G5 _ d_sense) by reflexivity.
      split; [exact PF4|]. split; [apply PC4; reflexivity|exact SE4].
  Qed.
  (** The last card, announced by the end-of-file key. *)
  Lemma read_last c s cm pc bi : deck c [] s -> d_eof s = true -> is_read cm -> with_parity cm = Ok pc ->
    exists s' b' es, talk a (read_whole pa pc) s free bi = Ok (s', free, b', [0; 8; 5], es) /\ Forall2 column_byte c es /\ d_st s' = IDLE /\ d_busy s' = false /\ d_eof s' = false /\ d_rdy s' = false.
  Proof.
    intros (I1 & I2 & I3 & I4 & I5 & I6 & I7 & I8 & I9 & I10 & I11 & I12 & I13 & I14 & I15) NE C PC. assert (CB : bit cm 1 = false) by (destruct C; subst; reflexivity).
    pose proof I15 as ([FO _] & _ & _ & [CL CF] & _). pose proof (hopper_len _ FO) as HL. rewrite I13 in HL.
    destruct s as [v0 v1 v2 v3 v4 v5 v6 v7 v8 v9 v10 v11 v12 v13 v14 v15 v16 v17 v18 v19 v20 v21 v22 v23 v24 v25 v26 v27 v28 v29].
    cbn [d_st d_sel d_req d_stk d_disc d_busy d_status d_pend d_rdy d_stop d_rdr_full d_rdr_card d_rdr_col d_feed d_hop_cnt d_eof] in *. subst v0 v1 v2 v3 v5 v9 v18 v19 v20 v21 v26 v27 v28 v29.
    destruct (start_read cm pc false v4 v6 v7 v8 v10 v11 v12 v13 v14 v15 v16 v17 c 0 true 0 v22 v23 v24 v25 true false bi C PC) as [b1 E1].
    destruct (columns a cm v13 false v15 v16 v17 c true 0 v22 v23 v24 (cm =? 34) true true false CB c 0 false true (Z.land v6 64) v10 b1 eq_refl CL CF) as (r2 & i2 & d2 & b2 & es & E2 & F2). rewrite CL in E2. change (Z.of_nat 0) with 0 in E2.
    destruct (end_read cm r2 i2 (sense_of (Z.land v6 64) c) d2 v13 false v15 v16 v17 c true 0 v22 v23 v24 (cm =? 34) true true false b2 C) as [b3 E3].
    set (s5 := mkD IDLE false true false i2 false (Z.lor (sense_of (Z.land v6 64) c) 64) cm true 5 d2 false true v13 true v15 v16 v17 c 80 true 0 v22 v23 v24 (cm =? 34) false false false []).
    assert (F5 : fire (mkD IDLE false false false i2 true (sense_of (Z.land v6 64) c) cm false 0 d2 false true v13 false v15 v16 v17 c 80 true 0 v22 v23 v24 (cm =? 34) true true false [CbFeed]) CbFeed = Ok s5).
    { unfold fire. nrm. unfold feed_cb, feed_flags. nrm. cbn [Z.eqb andb]. unfold do_feed. nrm. rewrite HL. reflexivity. }
    destruct (w_byte 5 ltac:(split; [discriminate|reflexivity])) as (w & EW & LW).
    destruct (request s5 b3 w 5 eq_refl eq_refl eq_refl eq_refl eq_refl eq_refl EW LW) as [b6 E6].
    eexists; exists b6, es. split; [|split; [exact F2|]].
    - unfold read_whole. eapply talk_two; [exact E1| |reflexivity|rewrite app_nil_l; reflexivity].
      eapply talk_two; [exact E2| |rewrite app_nil_l; reflexivity|rewrite app_nil_r; reflexivity]. rewrite app_assoc. eapply talk_two; [exact E3| |reflexivity|reflexivity].
      cbn [app]. eapply talk_fire; [exact F5|]. exact E6.
    - repeat split.
  Qed.
  Lemma read_all bad cm pc : (forall c, is_card c -> (bad c = true <-> Exists invalid c)) -> is_read cm -> with_parity cm = Ok pc -> forall cs c s bi, deck c cs s -> d_eof s = true ->
    exists s' b' ess, talk a (concat (repeat (read_whole pa pc) (length (c :: cs)))) s free bi = Ok (s', free, b', read_statuses bad (removelast (c :: cs)) ++ [0; 8; 5], concat ess) /\
      Forall2 (Forall2 column_byte) (c :: cs) ess.
  Proof.
    intros BAD C PC. induction cs as [|c2 cs IH]; intros c s bi D E.
    - destruct (read_last c s cm pc bi D E C PC) as (s' & b' & es & T & F & _). exists s', b', [es]. split; [|repeat constructor; exact F]. cbn [length repeat concat removelast]. rewrite !app_nil_r. exact T.
    - destruct (read_one c c2 cs s cm pc bi D (or_intror E) C PC) as (s1 & b1 & es & T1 & F1 & D1 & E1 & _). rewrite E in E1.
      destruct (IH c2 s1 b1 D1 E1) as (s2 & b2 & ess & T2 & F2). exists s2, b2, (es :: ess). split; [|constructor; assumption].
      change (concat (repeat (read_whole pa pc) (length (c :: c2 :: cs)))) with (read_whole pa pc ++ concat (repeat (read_whole pa pc) (length (c2 :: cs)))).
      eapply talk_two; [exact T1|exact T2| |reflexivity]. change (removelast (c :: c2 :: cs)) with (c :: removelast (c2 :: cs)). unfold read_statuses. cbn [map concat app].
      assert (IC : is_card c) by (destruct D as (_ & _ & _ & _ & _ & _ & _ & _ & _ & _ & D & _ & _ & _ & K); destruct K as (_ & _ & _ & K & _); rewrite D in K; exact K).
      assert (B : existsb inv c = bad c). { pose proof (inv_card c IC) as I1. pose proof (BAD c IC) as I2. destruct (existsb inv c), (bad c); try reflexivity; [symmetry; apply I2, I1; reflexivity|apply I1, I2; reflexivity]. }
      rewrite B. destruct (bad c); reflexivity.
  Qed.
End Dialogue.
