(** The card reader and punch: whole commands. *)
From Verif Require Import R1442.Spec2 R1442.Proofs R1442.Proofs2 R1442.Proofs3 R1442.Proofs4.

Lemma talk_app a l1 : forall l2 s t bi s1 t1 b1 st1 d1, talk a l1 s t bi = Ok (s1, t1, b1, st1, d1) ->
  talk a (l1 ++ l2) s t bi = let* (s2, t2, b2, st2, d2) := talk a l2 s1 t1 b1 in Ok (s2, t2, b2, st1 ++ st2, d1 ++ d2).
Proof.
  induction l1 as [|x l1 IH]; intros l2 s t bi s1 t1 b1 st1 d1 E.
  - cbn in E. injection E as <- <- <- <- <-. cbn [app]. destruct (talk a l2 s t bi) as [[[[[? ?] ?] ?] ?]| |]; reflexivity.
  - cbn [app]. destruct x as [o bo|k].
    + cbn [talk] in E |- *. destruct (dev_step a s (chan_tags o t) bo bi) as [[[s' t'] b']| |]; try discriminate. cbn [bind] in *.
      destruct (talk a l1 s' t' b') as [[[[[s2 t2] b2] st2] d2]| |] eqn:E1; try discriminate. cbn [bind] in E. injection E as <- <- <- <- <-.
      rewrite (IH l2 _ _ _ _ _ _ _ _ E1). destruct (talk a l2 s2 t2 b2) as [[[[[s3 t3] b3] st3] d3]| |]; cbn [bind]; [rewrite <- !app_assoc; reflexivity|reflexivity|reflexivity].
    + cbn [talk] in E |- *. destruct (fire s k) as [s0| |]; cbn [bind] in *; try discriminate. apply IH. exact E.
Qed.
Lemma talk_two a l1 l2 s t bi s1 t1 b1 st1 d1 s2 t2 b2 st2 d2 st d : talk a l1 s t bi = Ok (s1, t1, b1, st1, d1) -> talk a l2 s1 t1 b1 = Ok (s2, t2, b2, st2, d2) ->
  st = st1 ++ st2 -> d = d1 ++ d2 -> talk a (l1 ++ l2) s t bi = Ok (s2, t2, b2, st, d).
Proof. intros E1 E2 -> ->. rewrite (talk_app _ _ _ _ _ _ _ _ _ _ _ E1), E2. reflexivity. Qed.
Lemma talk_ub a l1 l2 s t bi s1 t1 b1 st1 d1 : talk a l1 s t bi = Ok (s1, t1, b1, st1, d1) -> talk a l2 s1 t1 b1 = UB -> talk a (l1 ++ l2) s t bi = UB.
Proof. intros E1 E2. rewrite (talk_app _ _ _ _ _ _ _ _ _ _ _ E1), E2. reflexivity. Qed.
Lemma talk_cyc a o bo l s t bi s1 t1 b1 s2 t2 b2 st d st' d' :
  dev_step a s (chan_tags o t) bo bi = Ok (s1, t1, b1) -> talk a l s1 t1 b1 = Ok (s2, t2, b2, st, d) ->
  st' = (if negb (stai t) && stai t1 then [Z.land b1 255] else []) ++ st -> d' = (if negb (srvi t) && srvi t1 then [Z.land b1 255] else []) ++ d ->
  talk a (Cyc o bo :: l) s t bi = Ok (s2, t2, b2, st', d').
Proof. intros E1 E2 -> ->. cbn [talk]. rewrite E1. cbn [bind]. rewrite E2. reflexivity. Qed.
Lemma talk_fire a l k s t bi s1 r : fire s k = Ok s1 -> talk a l s1 t bi = r -> talk a (EFire k :: l) s t bi = r.
Proof. intros E1 E2. cbn [talk]. rewrite E1. exact E2. Qed.
Lemma talk_nil a s t bi : talk a [] s t bi = Ok (s, t, bi, [], []). Proof. reflexivity. Qed.

(** One cycle at a time. *)
Ltac tg t := destruct t as [t1 t2 t3 t4 t5 t6 t7 t8 t9 t10 t11 t12]; cbn in *; subst; cbn.
Lemma r_select a pa s t bo bi : d_st s = IDLE -> opro t = true -> opri t = false -> selo t = true -> adro t = true -> Z.land bo 255 = Z.land a 255 -> bad_parity bo = Ok false -> d_busy s = false -> with_parity (Z.land a 255) = Ok pa ->
  dev_step a s t bo bi = Ok (set_sel true (set_st INIT_SEL (set_disc false s)), set_opri true (set_selo false (set_reqi false t)), pa).
Proof.
  intros H1 H2 H3 H4 H5 H6 H7 H8 H9. unfold dev_step. rewrite H1, H2, H3. cbn [negb andb]. cbn [d_req d_stk d_data_rdy set_disc].
  destruct (d_req s || d_stk s); cbn [selo adro set_reqi]; rewrite H4, H5, H6, Z.eqb_refl, H7; cbn [bind d_busy set_disc]; rewrite H8, H9; destruct t; reflexivity.
Qed.
Lemma r_poll a pa s t bo bi : d_st s = IDLE -> opro t = true -> opri t = false -> selo t = true -> adro t = false -> supo t = false -> d_req s || d_stk s = true -> with_parity (Z.land a 255) = Ok pa ->
  dev_step a s t bo bi = Ok (set_st INIT_SEL (set_sel true (set_disc false s)), set_opri true (set_selo false (set_reqi false t)), pa).
Proof.
  intros H1 H2 H3 H4 H5 H6 H7 H8. unfold dev_step. rewrite H1, H2, H3. cbn [negb andb]. cbn [d_req d_stk d_data_rdy set_disc]. rewrite H7. cbn [selo adro supo set_reqi]. rewrite H4, H5, H6. cbn [negb andb]. rewrite H8. destruct t; reflexivity.
Qed.
Lemma r_ask a s t bo bi : d_st s = IDLE -> opro t = true -> opri t = false -> selo t = false -> adro t = false -> supo t = false -> d_req s || d_stk s = true ->
  dev_step a s t bo bi = Ok (set_disc false s, set_reqi true t, bi).
Proof. intros H1 H2 H3 H4 H5 H6 H7. unfold dev_step. rewrite H1, H2, H3. cbn [negb andb]. cbn [d_req d_stk d_data_rdy set_disc]. rewrite H7. cbn [selo adro supo set_reqi]. rewrite H4, H5, H6. reflexivity. Qed.
Lemma r_init a pa s t bo bi : d_st s = INIT_SEL -> opro t = true -> adro t = false -> with_parity (Z.land a 255) = Ok pa -> dev_step a s t bo bi = Ok (set_st COMMAND s, set_adri true (set_selo false t), pa).
Proof. intros H1 H2 H3 H4. unfold dev_step. rewrite H1, H2, H4. cbn. rewrite H3. reflexivity. Qed.
Lemma r_command a pa s t bo bi : d_st s = COMMAND -> opro t = true -> cmdo t = true -> bad_parity bo = Ok false -> d_busy s = false -> d_stk s = false -> (d_status s =? 0) = true -> with_parity (Z.land a 255) = Ok pa ->
  dev_step a s t bo bi = Ok (device_cmd (set_st STATUS (set_req false s)) (Z.land bo 255), set_adri false (set_selo false t), pa).
Proof. intros H1 H2 H3 H4 H5 H6 H7 H8. unfold dev_step. rewrite H1, H2, H8, H4. cbn [negb andb bind]. cbn [cmdo set_selo d_busy d_stk d_status set_req set_st]. rewrite H3, H5, H6, H7. reflexivity. Qed.
Lemma r_command_keep a pa s t bo bi : d_st s = COMMAND -> opro t = true -> cmdo t = true -> bad_parity bo = Ok false -> d_busy s = false -> (d_status s =? 0) = false -> with_parity (Z.land a 255) = Ok pa ->
  dev_step a s t bo bi = Ok (set_st STATUS (set_req false s), set_adri false (set_selo false t), pa).
Proof. intros H1 H2 H3 H4 H5 H7 H8. unfold dev_step. rewrite H1, H2, H8, H4. cbn [negb andb bind]. cbn [cmdo set_selo d_busy d_stk d_status set_req set_st]. rewrite H3, H5, H7, andb_false_r. reflexivity. Qed.
Lemma r_status a s t bo bi w : d_st s = STATUS -> opro t = true -> with_parity (d_status s) = Ok w ->
  dev_step a s t bo bi = Ok (set_st STATUS_ACCEPT s, set_stai true (set_adri false (set_selo false t)), w).
Proof. intros H1 H2 H4. unfold dev_step. rewrite H1, H2, H4. reflexivity. Qed.
Lemma r_accept_opr a s t bo bi w : d_st s = STATUS_ACCEPT -> opro t = true -> cmdo t = false -> srvo t = true -> with_parity (d_status s) = Ok w -> d_cmd_done s = false -> (d_cmd s =? 0) = false -> d_data_end s = false ->
  dev_step a s t bo bi = Ok (set_st OPR (if d_data_rdy s then set_status 0 s else set_disc true (set_status 0 s)), set_stai false (set_selo false t), w).
Proof.
  intros H1 H2 H3 H4 H5 H6 H7 H8. unfold dev_step. rewrite H1, H2, H5. cbn [negb andb bind]. cbn [cmdo srvo set_selo]. rewrite H3, H4. cbn [d_cmd_done d_cmd d_data_end d_data_rdy set_status]. rewrite H6, H7, H8. cbn [orb]. destruct (d_data_rdy s); reflexivity.
Qed.
Lemma r_accept_done a s t bo bi w : d_st s = STATUS_ACCEPT -> opro t = true -> cmdo t = false -> srvo t = true -> with_parity (d_status s) = Ok w -> d_cmd_done s || (d_cmd s =? 0) = true ->
  dev_step a s t bo bi = Ok (set_st STATUS_WAIT (set_busy false (set_cmd 0 (set_cmd_done false (set_post false (set_data_end false (set_stk false (set_status 0 s))))))), set_opri false (set_stai false (set_selo false t)), w).
Proof. intros H1 H2 H3 H4 H5 H6. unfold dev_step. rewrite H1, H2, H5. cbn [negb andb bind]. cbn [cmdo srvo set_selo]. rewrite H3, H4. cbn [d_cmd_done d_cmd set_status]. rewrite H6. reflexivity. Qed.
Lemma r_wait a s t bo bi : d_st s = STATUS_WAIT -> opro t = true -> cmdo t = false -> srvo t = false -> adro t = false -> negb (hldo t) || negb (d_busy s) = true ->
  dev_step a s t bo bi = Ok (set_st IDLE (set_sel false s), set_opri false (set_selo false t), bi).
Proof. intros H1 H2 H3 H4 H5 H6. unfold dev_step. rewrite H1, H2. cbn. rewrite H3, H4, H5, H6. reflexivity. Qed.
Lemma r_opr_data a s t bo bi : d_st s = OPR -> opro t = true -> adro t = false -> d_data_rdy s = true -> dev_step a s t bo bi = Ok (set_st DATA_1 (set_req false s), set_selo false t, bi).
Proof. intros H1 H2 H3 H4. unfold dev_step. rewrite H1, H2. cbn. rewrite H3, H4. reflexivity. Qed.
Lemma r_opr_end a s t bo bi : d_st s = OPR -> opro t = true -> adro t = false -> d_data_rdy s = false -> (d_cmd s =? 4) = false -> d_data_end s = true ->
  dev_step a s t bo bi = Ok (set_st END_STATUS (set_req false s), set_selo false t, bi).
Proof. intros H1 H2 H3 H4 H5 H6. unfold dev_step. rewrite H1, H2. cbn -[Z.eqb]. rewrite H3, H4, H5. cbn -[Z.eqb]. rewrite H6. reflexivity. Qed.
Lemma r_opr_sense a s t bo bi : d_st s = OPR -> opro t = true -> adro t = false -> d_data_rdy s = false -> (d_cmd s =? 4) = true ->
  dev_step a s t bo bi = Ok (set_st END_STATUS (or_status (SNS_CHNEND + SNS_DEVEND) (set_busy false (set_cmd_done true (set_data_end true (set_disc false (set_req false s)))))), set_selo false t, bi).
Proof. intros H1 H2 H3 H4 H5. unfold dev_step. rewrite H1, H2. cbn -[Z.eqb]. rewrite H3, H4, H5. reflexivity. Qed.
Lemma r_data1 a s t bo bi w : d_st s = DATA_1 -> opro t = true -> srvo t = false -> supo t = false -> with_parity (d_data s) = Ok w ->
  dev_step a s t bo bi = Ok (set_st DATA_2 s, set_srvi true (set_selo false t), w).
Proof. intros H1 H2 H3 H4 H5. unfold dev_step. rewrite H1, H2. cbn. rewrite H3, H4, H5. reflexivity. Qed.
Lemma r_data1_ub a s t bo bi : d_st s = DATA_1 -> opro t = true -> srvo t = false -> supo t = false -> with_parity (d_data s) = UB -> dev_step a s t bo bi = UB.
Proof. intros H1 H2 H3 H4 H5. unfold dev_step. rewrite H1, H2. cbn. rewrite H3, H4, H5. reflexivity. Qed.
Lemma r_data2_read a s t bo bi w : d_st s = DATA_2 -> opro t = true -> srvo t = true -> cmdo t = false -> with_parity (d_data s) = Ok w -> bit (d_cmd s) 1 = false ->
  dev_step a s t bo bi = Ok (set_disc true (set_st OPR (set_data_rdy false s)), set_srvi false (set_selo false t), w).
Proof. intros H1 H2 H3 H4 H5 H6. unfold dev_step. rewrite H1, H2, H5. cbn [negb andb bind srvo cmdo set_selo set_srvi]. rewrite H3, H4. cbn [orb d_cmd set_data_rdy]. rewrite H6. reflexivity. Qed.
Lemma r_data2_write a s t bo bi w : d_st s = DATA_2 -> opro t = true -> srvo t = true -> cmdo t = false -> with_parity (d_data s) = Ok w -> bit (d_cmd s) 1 = true -> bad_parity bo = Ok false ->
  dev_step a s t bo bi = Ok (set_disc true (set_st OPR (set_data bo (set_data_rdy false s))), set_srvi false (set_selo false t), w).
Proof. intros H1 H2 H3 H4 H5 H6 H7. unfold dev_step. rewrite H1, H2, H5. cbn [negb andb bind srvo cmdo set_selo set_srvi]. rewrite H3, H4. cbn [orb d_cmd set_data_rdy]. rewrite H6, H7. reflexivity. Qed.
Lemma r_data2_stop a s t bo bi w : d_st s = DATA_2 -> opro t = true -> srvo t = false -> cmdo t = true -> with_parity (d_data s) = Ok w -> bit (d_cmd s) 1 = true -> bad_parity bo = Ok false ->
  dev_step a s t bo bi = Ok (set_disc true (device_stop (set_st OPR (set_data bo (set_data_rdy false s)))), set_srvi false (set_selo false t), w).
Proof. intros H1 H2 H3 H4 H5 H6 H7. unfold dev_step. rewrite H1, H2, H5. cbn [negb andb bind srvo cmdo set_selo set_srvi]. rewrite H3, H4. cbn [orb d_cmd set_data_rdy]. rewrite H6, H7. reflexivity. Qed.
Lemma r_end_status a s t bo bi w : d_st s = END_STATUS -> opro t = true -> cmdo t = false -> srvo t = false -> with_parity (d_status s) = Ok w ->
  dev_step a s t bo bi = Ok (set_st END_ACCEPT s, set_stai true (set_selo false t), w).
Proof. intros H1 H2 H3 H4 H5. unfold dev_step. rewrite H1, H2. cbn. rewrite H3, H4. cbn. rewrite H5. reflexivity. Qed.
Lemma r_end_accept a s t bo bi w : d_st s = END_ACCEPT -> opro t = true -> cmdo t = false -> srvo t = true -> with_parity (d_status s) = Ok w -> d_cmd_done s = false -> d_data_end s = true ->
  dev_step a s t bo bi = Ok (set_st STATUS_WAIT (set_status 0 s), set_opri false (set_stai false (set_selo false t)), w).
Proof. intros H1 H2 H3 H4 H5 H6 H7. unfold dev_step. rewrite H1, H2, H5. cbn. rewrite H3, H4. cbn. rewrite H6, H7. reflexivity. Qed.
Lemma r_end_done a s t bo bi w : d_st s = END_ACCEPT -> opro t = true -> cmdo t = false -> srvo t = true -> with_parity (d_status s) = Ok w -> d_cmd_done s = true ->
  dev_step a s t bo bi = Ok (set_st STATUS_WAIT (set_data_end false (set_busy false (set_cmd_done false (set_cmd 0 (set_stk false (set_status 0 s)))))), set_opri false (set_stai false (set_selo false t)), w).
Proof. intros H1 H2 H3 H4 H5 H6. unfold dev_step. rewrite H1, H2, H5. cbn. rewrite H3, H4. cbn. rewrite H6. reflexivity. Qed.

Ltac nrm := cbv beta iota zeta delta [set_st set_sel set_req set_stk set_disc set_busy set_sense set_cmd set_cmd_done set_status set_data set_data_rdy set_data_end set_post set_feed_done set_feed set_stack0 set_stack1 set_rdr_card set_rdr_col set_rdr_full set_hop_cnt set_pch_card set_pch_col set_pch_full set_stk_sel set_rdy set_eof set_stop set_pend or_sense or_status add_ev cancel_ev remove_cb cb_eqb existsb
  d_st d_sel d_req d_stk d_disc d_busy d_sense d_cmd d_cmd_done d_status d_data d_data_rdy d_data_end d_post d_feed_done d_feed d_stack0 d_stack1 d_rdr_card d_rdr_col d_rdr_full d_hop_cnt d_pch_card d_pch_col d_pch_full d_stk_sel d_rdy d_eof d_stop d_pend
  set_selo set_opri set_adri set_stai set_srvi set_reqi chan_tags selo adro cmdo srvo supo hldo opro opri adri stai srvi reqi o_sel o_adr o_cmd o_srv o_sup o_hld o_select o_poll o_command o_service held nothing free].
Ltac side := first [eassumption | reflexivity].
Ltac st R := eapply talk_cyc; [eapply R; side | nrm | | ].
Ltac ends tac := cbn; tac; reflexivity.
Lemma w_byte v : is_byte v -> exists w, with_parity v = Ok w /\ Z.land w 255 = v.
Proof. intros H. destruct (with_parity_ok v H) as (y & E & _ & L & _). exists y. split; assumption. Qed.
Lemma land_id b : is_byte b -> Z.land b 255 = b. Proof. intros B. change 255 with (Z.ones 8). rewrite Z.land_ones by lia. apply Z.mod_small. exact B. Qed.

(** *** Reading *)
(** In the middle of a read, column [k] of card [c] next. *)
Definition rd_dev (cm : Z) (req disc : bool) sense data post fd feed k0 k1 c k full hop pc pcol pf stk rdy eof stop : dev :=
  mkD OPR true req false disc true sense cm false 0 data false false post fd feed k0 k1 c k full hop pc pcol pf stk rdy eof stop [CbRead].
Definition rd_tags : tags := mkT false false false true false true true true false false false false.
Lemma fire_column cm req disc sense data post fd feed k0 k1 c k full hop pc pcol pf stk rdy eof stop h d :
  0 <= k < 80 -> tab c k = Ok h -> hol_to_ebcdic h = Ok d -> 0 <= d <= 256 ->
  fire (rd_dev cm req disc sense data post fd feed k0 k1 c k full hop pc pcol pf stk rdy eof stop) CbRead =
  Ok (mkD OPR true true false disc true (if d =? 256 then Z.lor sense 8 else sense) cm false 0 (if d =? 256 then 0 else d) true false post fd feed k0 k1 c (k + 1) full hop pc pcol pf stk rdy eof stop [CbRead]).
Proof.
  intros K T D R. unfold fire, rd_dev. nrm. unfold read_cb. nrm. cbn [negb]. rewrite (proj2 (Z.ltb_lt _ _) (proj2 K)). unfold col. rewrite T. cbn [bind]. rewrite D. cbn [bind].
  destruct (d =? 256) eqn:E; [reflexivity|]. apply Z.eqb_neq in E. destruct (ebcdic_ascii_ok d ltac:(lia)) as [v V]. rewrite V. reflexivity.
Qed.
Lemma one_column a cm req disc sense data post fd feed k0 k1 c k full hop pc pcol pf stk rdy eof stop bi h d :
  bit cm 1 = false -> 0 <= k < 80 -> tab c k = Ok h -> hol_to_ebcdic h = Ok d -> 0 <= d <= 256 -> exists b',
  talk a column (rd_dev cm req disc sense data post fd feed k0 k1 c k full hop pc pcol pf stk rdy eof stop) rd_tags bi =
  Ok (rd_dev cm false true (if d =? 256 then Z.lor sense 8 else sense) (if d =? 256 then 0 else d) post fd feed k0 k1 c (k + 1) full hop pc pcol pf stk rdy eof stop, rd_tags, b', [], [if d =? 256 then 0 else d]).
Proof.
  intros CM K T D R. assert (B : is_byte (if d =? 256 then 0 else d)) by (unfold is_byte; destruct (Z.eqb_spec d 256); lia). destruct (w_byte _ B) as (w & W & L).
  eexists. unfold column. eapply talk_fire; [apply (fire_column _ _ _ _ _ _ _ _ _ _ _ _ _ _ _ _ _ _ _ _ _ h d); assumption|]. unfold rd_tags.
  st r_opr_data. st r_data1. st r_data2_read. apply talk_nil. all: ends ltac:(rewrite ?L).
Qed.
(** The sense byte after the columns [l]. *)
Fixpoint sense_of (sense : Z) (l : list Z) : Z :=
  match l with [] => sense | h :: l => sense_of (match hol_to_ebcdic h with Ok d => if d =? 256 then Z.lor sense 8 else sense | _ => sense end) l end.
Lemma columns a cm post fd feed k0 k1 c full hop pc pcol pf stk rdy eof stop : bit cm 1 = false -> forall rest k req disc sense data bi, skipn k c = rest -> (k + length rest = 80)%nat -> Forall (fun h => 0 <= h < 4096) rest ->
  exists req' disc' data' b' es, talk a (concat (repeat column (length rest))) (rd_dev cm req disc sense data post fd feed k0 k1 c (Z.of_nat k) full hop pc pcol pf stk rdy eof stop) rd_tags bi =
    Ok (rd_dev cm req' disc' (sense_of sense rest) data' post fd feed k0 k1 c 80 full hop pc pcol pf stk rdy eof stop, rd_tags, b', [], es) /\ Forall2 column_byte rest es.
Proof.
  intros CM. induction rest as [|h rest IH]; intros k req disc sense data bi SK L F; cbn [length] in L.
  - exists req, disc, data, bi, []. split; [|constructor]. replace 80 with (Z.of_nat k) by lia. reflexivity.
  - inversion F; subst. destruct (tab_nth _ _ _ _ SK) as [T SK']. destruct (col_byte h) as (d & e & D & CB & DR & _ & E); [assumption|].
    destruct (one_column a cm req disc sense data post fd feed k0 k1 c (Z.of_nat k) full hop pc pcol pf stk rdy eof stop bi h d CM ltac:(lia) T D DR) as [b1 E1]. replace (Z.of_nat k + 1) with (Z.of_nat (S k)) in E1 by lia.
    destruct (IH (S k) false true (if d =? 256 then Z.lor sense 8 else sense) (if d =? 256 then 0 else d) b1 SK' ltac:(lia) ltac:(assumption)) as (r2 & i2 & d2 & b2 & es & E2 & F2).
    exists r2, i2, d2, b2, (e :: es). split; [|constructor; assumption]. cbn [length repeat concat]. cbn [sense_of]. rewrite D. eapply talk_two; [exact E1|exact E2|reflexivity|rewrite E; reflexivity].
Qed.
