(** Whole commands. *)
From Verif Require Import K1052.Spec K1052.Proofs K1052.Proofs2.

Lemma talk_app a l1 : forall l2 s t bi s1 t1 b1 st1 d1, talk a l1 s t bi = Ok (s1, t1, b1, st1, d1) ->
  talk a (l1 ++ l2) s t bi = let* (s2, t2, b2, st2, d2) := talk a l2 s1 t1 b1 in Ok (s2, t2, b2, st1 ++ st2, d1 ++ d2).
Proof.
  induction l1 as [|x l1 IH]; intros l2 s t bi s1 t1 b1 st1 d1 E.
  - cbn in E. injection E as <- <- <- <- <-. cbn [app]. destruct (talk a l2 s t bi) as [[[[[? ?] ?] ?] ?]| |]; reflexivity.
  - assert (EV : forall y, (let* s0 := astep a s y in talk a l1 s0 t bi) = Ok (s1, t1, b1, st1, d1) ->
      (let* s0 := astep a s y in talk a (l1 ++ l2) s0 t bi) = let* (s2, t2, b2, st2, d2) := talk a l2 s1 t1 b1 in Ok (s2, t2, b2, st1 ++ st2, d1 ++ d2)).
    { intros y. destruct (astep a s y) as [s0| |]; cbn [bind]; try discriminate. intros E'. apply IH. exact E'. }
    cbn [app]. destruct x as [o bo| | |i].
    + cbn [talk] in E |- *. destruct (dev_step a s (chan_tags o t) bo bi) as [[[s' t'] b']| |]; try discriminate. cbn [bind] in *.
      destruct (talk a l1 s' t' b') as [[[[[s2 t2] b2] st2] d2]| |] eqn:E1; try discriminate. cbn [bind] in E. injection E as <- <- <- <- <-.
      rewrite (IH l2 _ _ _ _ _ _ _ _ E1). destruct (talk a l2 s2 t2 b2) as [[[[[s3 t3] b3] st3] d3]| |]; cbn [bind]; [rewrite <- !app_assoc; reflexivity|reflexivity|reflexivity].
    + exact (EV _ E).
    + exact (EV _ E).
    + exact (EV _ E).
Qed.
Lemma talk_two a l1 l2 s t bi s1 t1 b1 st1 d1 s2 t2 b2 st2 d2 st d : talk a l1 s t bi = Ok (s1, t1, b1, st1, d1) -> talk a l2 s1 t1 b1 = Ok (s2, t2, b2, st2, d2) ->
  st = st1 ++ st2 -> d = d1 ++ d2 -> talk a (l1 ++ l2) s t bi = Ok (s2, t2, b2, st, d).
Proof. intros E1 E2 -> ->. rewrite (talk_app _ _ _ _ _ _ _ _ _ _ _ E1), E2. reflexivity. Qed.
Lemma talk_cyc a o bo l s t bi s1 t1 b1 s2 t2 b2 st d st' d' :
  dev_step a s (chan_tags o t) bo bi = Ok (s1, t1, b1) -> talk a l s1 t1 b1 = Ok (s2, t2, b2, st, d) ->
  st' = (if negb (stai t) && stai t1 then [Z.land b1 255] else []) ++ st -> d' = (if negb (srvi t) && srvi t1 then [Z.land b1 255] else []) ++ d ->
  talk a (Cyc o bo :: l) s t bi = Ok (s2, t2, b2, st', d').
Proof. intros E1 E2 -> ->. cbn [talk]. rewrite E1. cbn [bind]. rewrite E2. reflexivity. Qed.
Lemma talk_poll a l s t bi s1 r : astep a s Poll = Ok s1 -> talk a l s1 t bi = r -> talk a (EPoll :: l) s t bi = r.
Proof. intros E1 E2. cbn [talk event]. rewrite E1. exact E2. Qed.
Lemma talk_send a l s t bi s1 r : astep a s Send = Ok s1 -> talk a l s1 t bi = r -> talk a (ESend :: l) s t bi = r.
Proof. intros E1 E2. cbn [talk event]. rewrite E1. exact E2. Qed.
Lemma talk_net a l i s t bi s1 r : net false i s = s1 -> talk a l s1 t bi = r -> talk a (ENet i :: l) s t bi = r.
Proof. intros E1 E2. cbn [talk event astep bind]. rewrite E1. exact E2. Qed.
Lemma talk_nil a s t bi : talk a [] s t bi = Ok (s, t, bi, [], []). Proof. reflexivity. Qed.
Lemma e2a_tab b : is_byte b -> tab ebcdic_to_ascii b = Ok (nth (Z.to_nat b) ebcdic_to_ascii 0).
Proof. intros B. apply tab_nth. replace (length ebcdic_to_ascii) with 256%nat by reflexivity. exact B. Qed.
Lemma land_id b : is_byte b -> Z.land b 255 = b. Proof. intros B. rewrite land255. apply Z.mod_small. exact B. Qed.

Ltac nrm := cbv beta iota zeta delta [set_st set_sel set_req set_stk set_sense set_cmd set_status set_bsy set_data set_rdyd set_end set_done set_cons set_keys set_obuf set_oflg set_ocr set_iflg set_iptr set_optr set_ilen set_home set_attn set_cancel set_eob set_tn set_sent set_poll set_pend c_st c_sel c_req c_stk c_sense c_cmd c_status c_bsy c_data c_rdyd c_end c_done c_cons c_keys c_obuf c_oflg c_ocr c_iflg c_iptr c_optr c_ilen c_home c_attn c_cancel c_eob c_tn c_sent c_poll c_pend or_sense or_status set_selo set_opri set_adri set_stai set_srvi set_reqi chan_tags selo adro cmdo srvo supo hldo opro opri adri stai srvi reqi o_sel o_adr o_cmd o_srv o_sup o_hld o_select o_poll o_command o_service held nothing free].

(** One cycle at a time. *)
Lemma r_select a pa s t bo bi : c_st s = IDLE -> opro t = true -> opri t = false -> selo t = true -> adro t = true -> Z.land bo 255 = a -> bad_parity bo = Ok false -> c_bsy s = false -> with_parity a = Ok pa ->
  dev_step a s t bo bi = Ok (set_sel true (set_st INIT_SEL s), set_opri true (set_reqi false (set_selo false t)), pa).
Proof. intros H1 H2 H3 H4 H5 H6 H7 H8 H9. unfold dev_step. rewrite H1, H2, H3, H6, Z.eqb_refl, H7, H9. cbn [bind]. rewrite H8. destruct t as [t1 t2 t3 t4 t5 t6 t7 t8 t9 t10 t11 t12]. cbn in *. subst. destruct (c_req s || c_stk s); reflexivity. Qed.
Lemma r_poll a pa s t bo bi : c_st s = IDLE -> opro t = true -> opri t = false -> selo t = true -> adro t = false -> supo t = false -> c_req s || c_stk s = true -> with_parity a = Ok pa ->
  dev_step a s t bo bi = Ok (set_st INIT_SEL (set_sel true s), set_opri true (set_reqi false (set_selo false t)), pa).
Proof. intros H1 H2 H3 H4 H5 H6 H7 H8. unfold dev_step. rewrite H1, H2, H3, H7, H8. destruct t as [t1 t2 t3 t4 t5 t6 t7 t8 t9 t10 t11 t12]. cbn in *. subst. reflexivity. Qed.
Lemma r_ask a s t bo bi : c_st s = IDLE -> opro t = true -> opri t = false -> selo t = false -> adro t = false -> supo t = false -> c_req s || c_stk s = true ->
  dev_step a s t bo bi = Ok (s, set_reqi true t, bi).
Proof. intros H1 H2 H3 H4 H5 H6 H7. unfold dev_step. rewrite H1, H2, H3, H7. destruct t as [t1 t2 t3 t4 t5 t6 t7 t8 t9 t10 t11 t12]. cbn in *. subst. reflexivity. Qed.
Lemma r_quiet a s t bo bi : c_st s = IDLE -> opro t = true -> selo t = false -> c_req s || c_stk s = false -> dev_step a s t bo bi = Ok (s, t, bi).
Proof. intros H1 H2 H3 H4. unfold dev_step. rewrite H1, H2, H4. cbn. rewrite H3. destruct (opri t); reflexivity. Qed.
Lemma r_init a pa s t bo bi : c_st s = INIT_SEL -> opro t = true -> adro t = false -> with_parity a = Ok pa -> dev_step a s t bo bi = Ok (set_st COMMAND s, set_adri true (set_selo false t), pa).
Proof. intros H1 H2 H3 H4. unfold dev_step. rewrite H1, H2, H4. cbn. rewrite H3. reflexivity. Qed.
Lemma r_command a pa s t bo bi : c_st s = COMMAND -> opro t = true -> cmdo t = true -> bad_parity bo = Ok false -> c_bsy s = false -> c_stk s = false -> c_status s = 0 -> with_parity a = Ok pa ->
  dev_step a s t bo bi = Ok (device_cmd (Z.land bo 255) (set_st STATUS (set_req false s)), set_adri false (set_selo false t), pa).
Proof. intros H1 H2 H3 H4 H5 H6 H7 H8. unfold dev_step. rewrite H1, H2, H8. cbn -[device_cmd]. rewrite H3, H4. cbn -[device_cmd]. rewrite H5, H6, H7. reflexivity. Qed.
Lemma r_command_data a pa s t bo bi : c_st s = COMMAND -> opro t = true -> cmdo t = true -> bad_parity bo = Ok false -> c_bsy s = true -> c_end s = false -> with_parity a = Ok pa ->
  dev_step a s t bo bi = Ok (set_st DATA_1 (set_req false s), set_adri false (set_selo false t), pa).
Proof. intros H1 H2 H3 H4 H5 H6 H8. unfold dev_step. rewrite H1, H2, H8. cbn -[device_cmd]. rewrite H3, H4. cbn -[device_cmd]. rewrite H5, H6. reflexivity. Qed.
Lemma r_command_end a pa s t bo bi : c_st s = COMMAND -> opro t = true -> cmdo t = true -> bad_parity bo = Ok false -> c_bsy s = true -> c_end s = true -> c_done s = true -> with_parity a = Ok pa ->
  dev_step a s t bo bi = Ok (set_st STATUS (fst (func (or_status CED (set_req false s)) 1)), set_adri false (set_selo false t), pa).
Proof. intros H1 H2 H3 H4 H5 H6 H7 H8. unfold dev_step. rewrite H1, H2, H8. cbn -[device_cmd func]. rewrite H3, H4. cbn -[device_cmd func]. rewrite H5, H6, H7. reflexivity. Qed.
Lemma r_status a s t bo bi w : c_st s = STATUS -> opro t = true -> c_attn s = false -> with_parity (c_status s) = Ok w ->
  dev_step a s t bo bi = Ok (set_st STATUS_ACCEPT s, set_stai true (set_adri false (set_selo false t)), w).
Proof. intros H1 H2 H3 H4. unfold dev_step. rewrite H1, H2, H3, H4. reflexivity. Qed.
Lemma r_status_attn a s t bo bi w : c_st s = STATUS -> opro t = true -> c_attn s = true -> with_parity (c_status (or_status SNS_ATTN (fst (func s 2)))) = Ok w ->
  dev_step a s t bo bi = Ok (set_st STATUS_ACCEPT (or_status SNS_ATTN (fst (func s 2))), set_stai true (set_adri false (set_selo false t)), w).
Proof. intros H1 H2 H3 H4. unfold dev_step. rewrite H1, H2, H3, H4. reflexivity. Qed.
Lemma r_accept_opr a s t bo bi w : c_st s = STATUS_ACCEPT -> opro t = true -> cmdo t = false -> srvo t = true -> with_parity (c_status s) = Ok w -> c_done s = false -> (c_cmd s =? 0) = false -> c_end s = false ->
  dev_step a s t bo bi = Ok (set_st OPR (set_status 0 s), set_stai false (set_selo false t), w).
Proof. intros H1 H2 H3 H4 H5 H6 H7 H8. unfold dev_step. rewrite H1, H2, H5. cbn -[Z.eqb]. rewrite H3, H4. cbn -[Z.eqb]. rewrite H6, H7, H8. reflexivity. Qed.
Lemma r_accept_end a s t bo bi w : c_st s = STATUS_ACCEPT -> opro t = true -> cmdo t = false -> srvo t = true -> with_parity (c_status s) = Ok w -> c_done s = false -> (c_cmd s =? 0) = false -> c_end s = true -> hldo t = true ->
  dev_step a s t bo bi = Ok (set_st STATUS_WAIT (set_status 0 s), set_stai false (set_selo false t), w).
Proof. intros H1 H2 H3 H4 H5 H6 H7 H8 H9. unfold dev_step. rewrite H1, H2, H5. cbn -[Z.eqb]. rewrite H3, H4. cbn -[Z.eqb]. rewrite H6, H7, H8, H9. reflexivity. Qed.
Lemma r_accept_done a s t bo bi w : c_st s = STATUS_ACCEPT -> opro t = true -> cmdo t = false -> srvo t = true -> with_parity (c_status s) = Ok w -> c_done s || (c_cmd s =? 0) = true ->
  dev_step a s t bo bi = Ok (set_st STATUS_WAIT (all_done (set_end false (set_status 0 s))), set_opri false (set_stai false (set_selo false t)), w).
Proof. intros H1 H2 H3 H4 H5 H6. unfold dev_step. rewrite H1, H2, H5. cbn -[Z.eqb]. rewrite H3, H4. cbn -[Z.eqb]. rewrite H6. reflexivity. Qed.
Lemma r_wait a s t bo bi : c_st s = STATUS_WAIT -> opro t = true -> cmdo t = false -> srvo t = false -> adro t = false -> negb (hldo t) || negb (c_bsy s) = true ->
  dev_step a s t bo bi = Ok (set_st IDLE (set_sel false s), set_opri false (set_selo false t), bi).
Proof. intros H1 H2 H3 H4 H5 H6. unfold dev_step. rewrite H1, H2. cbn. rewrite H3, H4, H5, H6. reflexivity. Qed.
Lemma r_opr_data a s t bo bi : c_st s = OPR -> opro t = true -> adro t = false -> c_rdyd s = true -> dev_step a s t bo bi = Ok (set_st DATA_1 (set_req false s), set_selo false t, bi).
Proof. intros H1 H2 H3 H4. unfold dev_step. rewrite H1, H2. cbn. rewrite H3, H4. reflexivity. Qed.
Lemma r_opr_wait a s t bo bi : c_st s = OPR -> opro t = true -> adro t = false -> c_rdyd s = false -> c_end s || c_done s = false -> hldo t = true -> dev_step a s t bo bi = Ok (set_req false s, set_selo false t, bi).
Proof. intros H1 H2 H3 H4 H5 H6. unfold dev_step. rewrite H1, H2. cbn. rewrite H3, H4, H5, H6. reflexivity. Qed.
Definition finish (s : dev) : dev :=
  let s := or_status CED (set_req false s) in
  let k := Z.land (c_cmd s) 15 in
  set_st END_STATUS (if k =? 9 then fst (func s 5) else if k =? 1 then fst (func s 1) else if k =? 10 then fst (func s 80) else s).
Lemma r_opr_end a s t bo bi : c_st s = OPR -> opro t = true -> adro t = false -> c_rdyd s = false -> c_end s || c_done s = true ->
  dev_step a s t bo bi = Ok (finish s, set_selo false t, bi).
Proof. intros H1 H2 H3 H4 H5. unfold dev_step, finish. rewrite H1, H2. cbn -[func]. rewrite H3, H4, H5. reflexivity. Qed.
Lemma r_opr_halt a s t bo bi : c_st s = OPR -> opro t = true -> adro t = true ->
  dev_step a s t bo bi = Ok (set_st IDLE (set_sel false (or_status CED (set_rdyd false (set_done true (set_end true (set_req false s)))))), set_opri false (set_selo false t), bi).
Proof. intros H1 H2 H3. unfold dev_step. rewrite H1, H2. cbn -[func]. rewrite H3. reflexivity. Qed.
Lemma r_data1 a s t bo bi w : c_st s = DATA_1 -> opro t = true -> srvo t = false -> supo t = false -> with_parity (c_data s) = Ok w -> dev_step a s t bo bi = Ok (set_st DATA_2 s, set_srvi true (set_selo false t), w).
Proof. intros H1 H2 H3 H4 H5. unfold dev_step. rewrite H1, H2. cbn. rewrite H3, H4, H5. reflexivity. Qed.
Lemma r_data2_wait a s t bo bi w : c_st s = DATA_2 -> opro t = true -> srvo t = false -> cmdo t = false -> with_parity (c_data s) = Ok w -> dev_step a s t bo bi = Ok (s, set_selo false t, w).
Proof. intros H1 H2 H3 H4 H5. unfold dev_step. rewrite H1, H2, H5. cbn. rewrite H3, H4. reflexivity. Qed.
Lemma r_data2_write a s t bo bi w : c_st s = DATA_2 -> opro t = true -> srvo t = true -> cmdo t = false -> bit (c_cmd s) 1 = true -> bad_parity bo = Ok false -> with_parity (c_data s) = Ok w ->
  dev_step a s t bo bi = Ok (set_st OPR (set_pend (S (c_pend s)) (set_data bo (set_rdyd false s))), set_srvi false (set_selo false t), w).
Proof. intros H1 H2 H3 H4 H5 H6 H7. unfold dev_step. rewrite H1, H2, H7. cbn -[bit]. rewrite H3, H4, H5, H6. cbn. rewrite ?H4. reflexivity. Qed.
Lemma r_data2_read a s t bo bi w : c_st s = DATA_2 -> opro t = true -> srvo t = true -> cmdo t = false -> bit (c_cmd s) 1 = false -> with_parity (c_data s) = Ok w ->
  dev_step a s t bo bi = Ok (set_st OPR (set_rdyd false s), set_srvi false (set_selo false t), w).
Proof. intros H1 H2 H3 H4 H5 H7. unfold dev_step. rewrite H1, H2, H7. cbn -[bit]. rewrite H3, H4, H5. cbn. rewrite ?H4. reflexivity. Qed.
Lemma r_data2_stop a s t bo bi w : c_st s = DATA_2 -> opro t = true -> srvo t = false -> cmdo t = true -> with_parity (c_data s) = Ok w ->
  dev_step a s t bo bi = Ok (set_st OPR (set_done true (set_end true (set_rdyd false s))), set_srvi false (set_selo false t), w).
Proof. intros H1 H2 H3 H4 H7. unfold dev_step. rewrite H1, H2, H7. cbn -[bit]. rewrite H3, H4. cbn. rewrite ?H4. reflexivity. Qed.
Lemma r_end_status a s t bo bi w : c_st s = END_STATUS -> opro t = true -> cmdo t = false -> srvo t = false -> with_parity (c_status s) = Ok w ->
  dev_step a s t bo bi = Ok (set_st END_ACCEPT s, set_stai true (set_selo false t), w).
Proof. intros H1 H2 H3 H4 H5. unfold dev_step. rewrite H1, H2. cbn. rewrite H3, H4, H5. reflexivity. Qed.
Lemma r_end_accept a s t bo bi w : c_st s = END_ACCEPT -> opro t = true -> cmdo t = false -> srvo t = true -> c_done s = true -> with_parity (c_status s) = Ok w ->
  dev_step a s t bo bi = Ok (set_st STATUS_WAIT (all_done (set_status 0 s)), set_opri false (set_stai false (set_selo false t)), w).
Proof. intros H1 H2 H3 H4 H5 H6. unfold dev_step. rewrite H1, H2, H6. cbn. rewrite H3, H4, H5. reflexivity. Qed.
Lemma r_send a s n g : c_pend s = S n -> c_cons s = true -> bit (c_cmd s) 1 = true -> c_home s = true -> c_oflg s = false -> c_ocr s = false -> tab ebcdic_to_ascii (Z.land (c_data s) 255) = Ok g ->
  astep a s Send = Ok (set_req true (set_rdyd true (set_oflg true (set_obuf g (set_pend n s))))).
Proof.
  intros H1 H2 H3 H4 H5 H6 H7. cbn [astep]. rewrite H1. unfold send_cb. pose proof (func0 (set_pend n s)) as F. pose proof (func0_ready (set_pend n s)) as R. destruct (func (set_pend n s) 0) as [s1 out].
  cbn [fst snd] in *. subst s1. rewrite R. cbn [c_cmd c_cons c_home c_oflg c_ocr set_pend]. rewrite H2, H3, H4, H5, H6. cbn [negb andb orb]. unfold out_char. cbn [c_data set_pend]. rewrite H7. reflexivity.
Qed.
Ltac side := first [eassumption | reflexivity].
Ltac st R := eapply talk_cyc; [eapply R; side | nrm | | ].
Ltac ends tac := cbn; tac; reflexivity.

Section Dialogue.
  Variables a pa : Z.
  Hypothesis A : is_byte a.
  Hypothesis PA : with_parity a = Ok pa.
  Lemma pa_low : Z.land pa 255 = a.
  Proof. destruct (with_parity_ok a A) as (y & E & _ & L & _). rewrite PA in E. injection E as <-. exact L. Qed.
  Lemma pa_good : bad_parity pa = Ok false. Proof. exact (parity_good a pa A PA). Qed.
  Lemma w_byte v : is_byte v -> exists w, with_parity v = Ok w /\ Z.land w 255 = v.
  Proof. intros H. destruct (with_parity_ok v H) as (y & E & _ & L & _). exists y. split; assumption. Qed.

  Definition wr_tags (first : bool) : tags := mkT false false false first false true true true false false false false.
  (** Between two bytes of a write. *)
  Definition wr (req : bool) c data keys obuf iptr tn sent poll : dev :=
    mkC OPR true req false 0 c 0 true data true false false true keys obuf false false false iptr iptr 0 true false false false tn sent poll O.
  Definition is_write (c : Z) : Prop := c = 1 \/ c = 9.

  Lemma do_write c st sel req stk sense cmd status data rdyd en done keys obuf oflg ocr iflg iptr optr ilen home attn cancel eob tn sent poll pend : is_write c ->
    device_cmd c (mkC st sel req stk sense cmd status false data rdyd en done true keys obuf oflg ocr iflg iptr optr ilen home attn cancel eob tn sent poll pend)
    = mkC st sel req false 0 c 0 true data true false false true keys obuf oflg ocr false iptr iptr 0 true attn false false tn sent poll pend.
  Proof. intros [-> | ->]; reflexivity. Qed.
  Lemma start_write c pc req sense cmd data rdyd en done keys obuf iflg iptr optr ilen home cancel eob tn sent poll bi :
    is_write c -> with_parity c = Ok pc ->
    exists b, talk a (start_io pa pc) (mkC IDLE false req false sense cmd 0 false data rdyd en done true keys obuf false false iflg iptr optr ilen home false cancel eob tn sent poll O) free bi
      = Ok (wr false c data keys obuf iptr tn sent poll, wr_tags true, b, [0], []).
  Proof.
    intros C PC. pose proof pa_low as LA. pose proof pa_good as GA. destruct (w_byte 0 ltac:(apply byte_const; reflexivity)) as (w0 & E0 & L0).
    assert (B : is_byte c) by (destruct C; subst; apply byte_const; reflexivity). pose proof (parity_good c pc B PC) as GC. destruct (w_byte c B) as (y & E & LC). rewrite PC in E. injection E as <-.
    assert (C0 : (c =? 0) = false) by (destruct C; subst; reflexivity).
    eexists. unfold start_io, ask, free. cbn [app].
    st r_select. st r_init. st r_command. rewrite LC, do_write by exact C. st r_status. st r_accept_opr. apply talk_nil. all: ends ltac:(rewrite ?L0).
  Qed.
  Lemma give_byte first req c b data keys obuf iptr tn sent poll bi :
    is_write c -> is_byte data -> is_byte b -> with_parity b = Ok b ->
    exists bi', talk a (give b) (wr req c data keys obuf iptr tn sent poll) (wr_tags first) bi
      = Ok (wr true c b keys (nth (Z.to_nat b) ebcdic_to_ascii 0) iptr tn (sent ++ shown b) poll, wr_tags false, bi', [], [data]).
  Proof.
    intros C D B PB. pose proof (parity_good b b B PB) as GB. destruct (w_byte data D) as (wd & ED & LD). pose proof (land_id b B) as LB.
    pose proof (e2a_tab b B) as TB. unfold shown. cbv zeta. remember (nth (Z.to_nat b) ebcdic_to_ascii 0) as g eqn:EG. clear EG. rewrite <- LB in TB at 1.
    assert (C1 : bit c 1 = true) by (destruct C; subst; reflexivity).
    eexists. unfold give, wr, wr_tags. st r_opr_data. st r_data1. st r_data2_write. st r_opr_wait.
    eapply talk_send; [eapply r_send; side|]. nrm.
    eapply talk_net; [reflexivity|]. nrm. apply talk_nil. all: ends ltac:(rewrite ?LD).
  Qed.
  Lemma give_bytes c l : is_write c -> Forall (fun b => is_byte b /\ with_parity b = Ok b) l -> forall first req data keys obuf iptr tn sent poll bi, is_byte data ->
    exists first' req' data' obuf' bi' d, talk a (give_all l) (wr req c data keys obuf iptr tn sent poll) (wr_tags first) bi
      = Ok (wr req' c data' keys obuf' iptr tn (sent ++ concat (map shown l)) poll, wr_tags first', bi', [], d) /\ is_byte data'.
  Proof.
    intros C. induction l as [|b l IH]; intros F first req data keys obuf iptr tn sent poll bi D.
    - exists first, req, data, obuf, bi, []. cbn [map concat give_all]. rewrite app_nil_r. split; [reflexivity|exact D].
    - inversion F as [|? ? [B PB] F']; subst. destruct (give_byte first req c b data keys obuf iptr tn sent poll bi C D B PB) as [b1 E1].
      destruct (IH F' false true b keys (nth (Z.to_nat b) ebcdic_to_ascii 0) iptr tn (sent ++ shown b) poll b1 B) as (f2 & r2 & d2 & o2 & b2 & l2 & E2 & D2).
      exists f2, r2, d2, o2, b2, ([data] ++ l2). split; [|exact D2]. unfold give_all. cbn [map concat]. fold (give_all l). eapply talk_two; [exact E1| |reflexivity|reflexivity].
      rewrite E2. rewrite <- app_assoc. reflexivity.
  Qed.
  Definition after (data : Z) keys obuf (ocr : bool) iptr tn sent poll : dev :=
    mkC IDLE false false false 0 0 0 false data false true false true keys obuf false ocr false iptr iptr 0 false false false false tn sent poll O.
  Lemma end_write first req c data keys obuf iptr tn sent poll bi : is_write c -> is_byte data ->
    exists bi', talk a (no_more ++ take_end ++ [ENet None]) (wr req c data keys obuf iptr tn sent poll) (wr_tags first) bi
      = Ok (after data keys obuf false iptr tn (sent ++ if c =? 9 then [13; 10] else []) poll, free, bi', [12], [data]).
  Proof.
    intros C D. destruct (w_byte data D) as (wd & ED & LD). destruct (w_byte 12 ltac:(apply byte_const; reflexivity)) as (w12 & E12 & L12).
    assert (FN : forall keys obuf iptr tn sent poll, finish (mkC OPR true false false 0 c 0 true data false true true true keys obuf false false false iptr iptr 0 true false false false tn sent poll O)
      = mkC END_STATUS true false false 0 c 12 true data false true true true keys obuf false (c =? 9) false iptr iptr 0 false false false false tn sent poll O).
    { intros. destruct C; subst c; reflexivity. }
    eexists. unfold no_more, take_end, wr, wr_tags, free, after. cbn [app].
    st r_opr_data. st r_data1. st r_data2_stop. st r_opr_end. rewrite FN. st r_end_status. st r_end_accept. st r_wait.
    eapply talk_net. { instantiate (1 := after data keys obuf false iptr tn (sent ++ if c =? 9 then [13; 10] else []) poll). destruct (c =? 9); [reflexivity|rewrite app_nil_r; reflexivity]. }
    apply talk_nil. all: ends ltac:(rewrite ?LD, ?L12).
  Qed.
  Lemma write_all s c pc l bi : idle s -> clean s -> is_write c -> with_parity c = Ok pc -> Forall (fun b => is_byte b /\ with_parity b = Ok b) l ->
    exists s' bi' d, talk a (write_text pa pc l) s free bi = Ok (s', free, bi', [0; 12], d) /\ idle s' /\ clean s' /\
      c_sent s' = c_sent s ++ concat (map shown l) ++ (if c =? 9 then [13; 10] else []).
  Proof.
    intros (I1 & I2 & I3 & I4 & I5 & I6 & I7 & I8 & I9) (C1 & C2) C PC F. destruct s as [c_st0 c_sel0 c_req0 c_stk0 c_sense0 c_cmd0 c_status0 c_bsy0 c_data0 c_rdyd0 c_end0 c_done0 c_cons0 c_keys0 c_obuf0 c_oflg0 c_ocr0 c_iflg0 c_iptr0 c_optr0 c_ilen0 c_home0 c_attn0 c_cancel0 c_eob0 c_tn0 c_sent0 c_poll0 c_pend0]; cbn [c_st c_sel c_req c_stk c_sense c_cmd c_status c_bsy c_data c_rdyd c_end c_done c_cons c_keys c_obuf c_oflg c_ocr c_iflg c_iptr c_optr c_ilen c_home c_attn c_cancel c_eob c_tn c_sent c_poll c_pend] in *; subst.
    destruct (start_write c pc c_req0 c_sense0 c_cmd0 c_data0 c_rdyd0 c_end0 c_done0 c_keys0 c_obuf0 c_iflg0 c_iptr0 c_optr0 c_ilen0 c_home0 c_cancel0 c_eob0 c_tn0 c_sent0 c_poll0 bi C PC) as [b1 E1].
    destruct (give_bytes c l C F true false c_data0 c_keys0 c_obuf0 c_iptr0 c_tn0 c_sent0 c_poll0 b1 C2) as (f2 & r2 & d2 & o2 & b2 & l2 & E2 & D2).
    destruct (end_write f2 r2 c d2 c_keys0 o2 c_iptr0 c_tn0 (c_sent0 ++ concat (map shown l)) c_poll0 b2 C D2) as [b3 E3].
    eexists; eexists; eexists. split.
    - unfold write_text. eapply talk_two; [exact E1| |reflexivity|reflexivity]. eapply talk_two; [exact E2|exact E3|reflexivity|reflexivity].
    - split; [repeat split|]. split; [split; [reflexivity|exact D2]|]. cbn [c_sent after]. rewrite <- app_assoc. reflexivity.
  Qed.
  (** A byte that comes with a parity bit. *)
  Lemma big_parity b pb : is_byte b -> with_parity b = Ok pb -> pb <> b -> ~ is_byte pb.
  Proof.
    intros B W N Q. apply N. destruct (with_parity_ok b B) as (y & E & _ & L & _). rewrite W in E. injection E as <-. rewrite land_id in L by exact Q. exact L.
  Qed.
  Lemma talk_ub l1 : forall l2 s t bi s1 t1 b1 st1 d1, talk a l1 s t bi = Ok (s1, t1, b1, st1, d1) -> talk a l2 s1 t1 b1 = UB -> talk a (l1 ++ l2) s t bi = UB.
  Proof. intros l2 s t bi s1 t1 b1 st1 d1 E1 E2. rewrite (talk_app _ _ _ _ _ _ _ _ _ _ _ E1), E2. reflexivity. Qed.
  Lemma write_ub s c pc l b pb bi : idle s -> clean s -> is_write c -> with_parity c = Ok pc -> Forall (fun b => is_byte b /\ with_parity b = Ok b) l -> is_byte b -> with_parity b = Ok pb -> pb <> b ->
    forall m, talk a (write_text pa pc (l ++ pb :: m)) s free bi = UB.
  Proof.
    intros (I1 & I2 & I3 & I4 & I5 & I6 & I7 & I8 & I9) (C1 & C2) C PC F B PB N m. destruct s as [c_st0 c_sel0 c_req0 c_stk0 c_sense0 c_cmd0 c_status0 c_bsy0 c_data0 c_rdyd0 c_end0 c_done0 c_cons0 c_keys0 c_obuf0 c_oflg0 c_ocr0 c_iflg0 c_iptr0 c_optr0 c_ilen0 c_home0 c_attn0 c_cancel0 c_eob0 c_tn0 c_sent0 c_poll0 c_pend0]; cbn [c_st c_sel c_req c_stk c_sense c_cmd c_status c_bsy c_data c_rdyd c_end c_done c_cons c_keys c_obuf c_oflg c_ocr c_iflg c_iptr c_optr c_ilen c_home c_attn c_cancel c_eob c_tn c_sent c_poll c_pend] in *; subst.
    destruct (start_write c pc c_req0 c_sense0 c_cmd0 c_data0 c_rdyd0 c_end0 c_done0 c_keys0 c_obuf0 c_iflg0 c_iptr0 c_optr0 c_ilen0 c_home0 c_cancel0 c_eob0 c_tn0 c_sent0 c_poll0 bi C PC) as [b1 E1].
    destruct (give_bytes c l C F true false c_data0 c_keys0 c_obuf0 c_iptr0 c_tn0 c_sent0 c_poll0 b1 C2) as (f2 & r2 & d2 & o2 & b2 & l2 & E2 & D2).
    unfold write_text. eapply talk_ub; [exact E1|]. unfold give_all. rewrite map_app, concat_app, <- app_assoc. eapply talk_ub; [exact E2|]. cbn [map concat]. rewrite <- app_assoc.
    pose proof (parity_good b pb B PB) as GB. destruct (w_byte d2 D2) as (wd & ED & LD). pose proof (e2a_tab _ (byte_land pb)) as TB.
    assert (C3 : bit c 1 = true) by (destruct C; subst; reflexivity). remember (nth (Z.to_nat (Z.land pb 255)) ebcdic_to_ascii 0) as g eqn:EG. clear EG.
    assert (E3 : exists b3 s3, talk a (give pb) (wr r2 c d2 c_keys0 o2 c_iptr0 c_tn0 (c_sent0 ++ concat (map shown l)) c_poll0) (wr_tags f2) b2 = Ok (wr true c pb c_keys0 g c_iptr0 c_tn0 s3 c_poll0, wr_tags false, b3, [], [d2])).
    { eexists; eexists. unfold give, wr, wr_tags. st r_opr_data. st r_data1. st r_data2_write. st r_opr_wait. eapply talk_send; [eapply r_send; side|]. nrm. eapply talk_net; [reflexivity|]. nrm. apply talk_nil. all: ends ltac:(rewrite ?LD). }
    destruct E3 as (b3 & s3 & E3). eapply talk_ub; [exact E3|].
    assert (X : forall bo bo2 r, talk a (Cyc held bo :: Cyc held bo2 :: r) (wr true c pb c_keys0 g c_iptr0 c_tn0 s3 c_poll0) (wr_tags false) b3 = UB).
    { intros bo bo2 r. cbn [talk]. rewrite r_opr_data by reflexivity. cbn [bind]. cbn [talk]. unfold dev_step. cbn -[with_parity]. rewrite (parity_ub pb) by (exact (big_parity b pb B PB N)). reflexivity. }
    destruct m as [|b' m]; cbn [map concat app]; [unfold no_more|unfold give]; cbn [app]; apply X.
  Qed.

  (** Reading. *)
  Definition rdg (req : bool) data rdyd en done keys obuf oflg (ocr : bool) iptr optr ilen eob sent : dev :=
    mkC OPR true req false 0 10 0 true data rdyd en done true keys obuf oflg ocr true iptr optr ilen false false false eob T_NORM sent true O.
  Lemma start_read pc req sense cmd data rdyd en done keys obuf iflg iptr optr ilen home cancel eob sent bi :
    with_parity 10 = Ok pc ->
    exists b, talk a (start_io pa pc) (mkC IDLE false req false sense cmd 0 false data rdyd en done true keys obuf false false iflg iptr optr ilen home false cancel eob T_NORM sent true O) free bi
      = Ok (rdg false data false false false keys obuf false false iptr iptr 0 false sent, wr_tags true, b, [0], []).
  Proof.
    intros PC. pose proof pa_low as LA. pose proof pa_good as GA. destruct (w_byte 0 ltac:(apply byte_const; reflexivity)) as (w0 & E0 & L0).
    assert (B : is_byte 10) by (apply byte_const; reflexivity). pose proof (parity_good _ pc B PC) as GC. destruct (w_byte _ B) as (y & E & LC). rewrite PC in E. injection E as <-.
    eexists. unfold start_io, ask, free. cbn [app].
    st r_select. st r_init. st r_command. rewrite LC.
    match goal with |- context[device_cmd 10 ?s] => replace (device_cmd 10 s) with (mkC STATUS true false false 0 10 0 true data false false false true keys obuf false false true iptr iptr 0 false false false false T_NORM sent true O) by reflexivity end.
    st r_status. st r_accept_opr. apply talk_nil. all: ends ltac:(rewrite ?L0).
  Qed.
  Lemma code_byte k : 0 <= k < 128 -> is_byte (code k).
  Proof.
    intros K. unfold code, is_byte. pose proof (sweep 128 (fun c => let e := nth (Z.to_nat c) ascii_to_ebcdic 0 in (0 <=? e) && (e <? 256)) ltac:(vm_compute; reflexivity) k K) as S. cbn beta zeta in S. apply andb_true_iff in S. lia.
  Qed.
  Lemma r_type k s : c_cons s = true -> c_oflg s = false -> c_ocr s = false -> c_iflg s = true -> c_tn s = T_NORM -> c_ilen s = 0 -> control k = false -> k <> 255 ->
    net false (Some [k]) s = set_sent (c_sent s ++ [k]) (set_ilen 1 (set_iptr (Z.land (c_iptr s + 1) 255) (set_keys (upd (c_keys s) (Z.to_nat (c_iptr s)) k) s))).
  Proof.
    intros H1 H2 H3 H4 H5 H6 H7 H8. unfold net, flush. rewrite H1, H2, H3. cbn [receive]. rewrite H6. cbn [Z.ltb Z.compare]. unfold telnet. rewrite H5. replace (k =? 255) with false by lia.
    unfold push_char. unfold control in H7. apply orb_false_iff in H7. destruct H7 as [H7 K4]. apply orb_false_iff in H7. destruct H7 as [H7 K3]. apply orb_false_iff in H7. destruct H7 as [K1 K2].
    rewrite K1, K2, H4, K3, K4, H6. reflexivity.
  Qed.
  Lemma take_key first req k data keys obuf iptr sent bi : 0 <= k < 128 -> control k = false -> length keys = 256%nat -> 0 <= iptr < 256 ->
    exists bi' keys' iptr', talk a (key_taken k) (rdg req data false false false keys obuf false false iptr iptr 0 false sent) (wr_tags first) bi
      = Ok (rdg false (code k) false false false keys' obuf false false iptr' iptr' 0 false (sent ++ [k]), wr_tags false, bi', [], [code k]) /\ length keys' = 256%nat /\ 0 <= iptr' < 256.
  Proof.
    intros K CT L I. pose proof (code_byte k K) as B. destruct (w_byte _ B) as (wk & EK & LK).
    exists wk, (upd keys (Z.to_nat iptr) k), (Z.land (iptr + 1) 255). split; [|split; [rewrite upd_length; exact L|exact (byte_land _)]].
    unfold key_taken, rdg, wr_tags. eapply talk_net; [apply r_type; first [reflexivity|exact CT|lia]|]. nrm.
    set (ks := upd keys (Z.to_nat iptr) k). set (ip := Z.land (iptr + 1) 255).
    assert (TK : tab ks iptr = Ok k). { unfold ks. rewrite tab_nth by (rewrite upd_length; lia). rewrite nth_upd by lia. rewrite Nat.eqb_refl. reflexivity. }
    assert (TA : tab ascii_to_ebcdic k = Ok (code k)). { apply tab_nth. replace (length ascii_to_ebcdic) with 128%nat by reflexivity. lia. }
    eapply talk_poll.
    { cbn [astep c_poll]. rewrite poll_eq. cbn [c_cmd c_cons c_home c_oflg c_ocr c_ilen]. change (0 <? 1) with true. change (bit 10 1) with false. cbn [negb andb orb].
      unfold in_char. cbn [c_iflg c_ilen c_keys c_optr]. change (0 <? 1) with true. cbn [andb]. rewrite TK. cbn [bind]. rewrite TA. cbn [bind]. rewrite EK. cbn [bind]. rewrite LK. reflexivity. }
    unfold poll_tail. cbn [c_cons c_ilen c_attn]. change (0 <? 1) with true. cbn [negb andb]. nrm. change (1 - 1) with 0. fold ip.
    st r_opr_data. st r_data1. st r_data2_read. st r_opr_wait. apply talk_nil. all: ends ltac:(rewrite ?LK).
  Qed.
  Lemma take_keys l : Forall (fun k => 0 <= k < 128 /\ control k = false) l -> forall first req data keys obuf iptr sent bi, is_byte data -> length keys = 256%nat -> 0 <= iptr < 256 ->
    exists first' req' bi' data' keys' iptr', talk a (concat (map key_taken l)) (rdg req data false false false keys obuf false false iptr iptr 0 false sent) (wr_tags first) bi
      = Ok (rdg req' data' false false false keys' obuf false false iptr' iptr' 0 false (sent ++ l), wr_tags first', bi', [], map code l) /\ length keys' = 256%nat /\ 0 <= iptr' < 256 /\ is_byte data'.
  Proof.
    induction l as [|k l IH]; intros F first req data keys obuf iptr sent bi D L I.
    - exists first, req, bi, data, keys, iptr. cbn [map concat talk]. rewrite app_nil_r. auto.
    - inversion F as [|? ? [K CT] F']; subst. destruct (take_key first req k data keys obuf iptr sent bi K CT L I) as (b1 & k1 & i1 & E1 & L1 & I1).
      destruct (IH F' false false (code k) k1 obuf i1 (sent ++ [k]) b1 (code_byte k K) L1 I1) as (f2 & r2 & b2 & d2 & k2 & i2 & E2 & L2 & I2 & D2).
      exists f2, r2, b2, d2, k2, i2. split; [|auto]. cbn [map concat]. eapply talk_two; [exact E1| |reflexivity|reflexivity]. rewrite E2, <- app_assoc. reflexivity.
  Qed.
  Lemma end_read first req data keys obuf iptr sent bi :
    exists bi', talk a ([ENet (Some [13]); EPoll; Cyc held 0] ++ take_end) (rdg req data false false false keys obuf false false iptr iptr 0 false sent) (wr_tags first) bi
      = Ok (mkC IDLE false false false 0 0 0 false data false true false true keys obuf false true true iptr iptr 0 false false false true T_NORM sent true O, free, bi', [12], []).
  Proof.
    destruct (w_byte 12 ltac:(apply byte_const; reflexivity)) as (w12 & E12 & L12).
    eexists. unfold take_end, rdg, wr_tags, free. cbn [app]. eapply talk_net; [reflexivity|]. nrm.
    eapply talk_poll; [cbn [astep c_poll]; rewrite poll_eq; reflexivity|].
    match goal with |- talk _ _ ?s _ _ = _ => replace s with (rdg true data false true true keys obuf false true iptr iptr 0 true sent) by reflexivity end. unfold rdg.
    st r_opr_end. match goal with |- context[finish ?s] => replace (finish s) with (mkC END_STATUS true false false 0 10 12 true data false true true true keys obuf false true true iptr iptr 0 false false false true T_NORM sent true O) by reflexivity end.
    st r_end_status. st r_end_accept. st r_wait. apply talk_nil. all: ends ltac:(rewrite ?L12).
  Qed.
  Lemma read_all s pc l bi : idle s -> clean s -> queue_ok s -> c_tn s = T_NORM -> c_poll s = true -> with_parity 10 = Ok pc -> Forall (fun k => 0 <= k < 128 /\ control k = false) l ->
    exists s' bi', talk a (read_line pa pc l) s free bi = Ok (s', free, bi', [0; 12], map code l) /\ c_st s' = IDLE /\ c_bsy s' = false /\ c_sent s' = c_sent s ++ l.
  Proof.
    intros (I1 & I2 & I3 & I4 & I5 & I6 & I7 & I8 & I9) (C1 & C2) (Q1 & Q2 & Q3 & Q4) T P PC F. assert (QI : 0 <= c_iptr s < 256) by (rewrite Q4; apply Z.mod_pos_bound; lia). destruct s as [c_st0 c_sel0 c_req0 c_stk0 c_sense0 c_cmd0 c_status0 c_bsy0 c_data0 c_rdyd0 c_end0 c_done0 c_cons0 c_keys0 c_obuf0 c_oflg0 c_ocr0 c_iflg0 c_iptr0 c_optr0 c_ilen0 c_home0 c_attn0 c_cancel0 c_eob0 c_tn0 c_sent0 c_poll0 c_pend0]; cbn [c_st c_sel c_req c_stk c_sense c_cmd c_status c_bsy c_data c_rdyd c_end c_done c_cons c_keys c_obuf c_oflg c_ocr c_iflg c_iptr c_optr c_ilen c_home c_attn c_cancel c_eob c_tn c_sent c_poll c_pend] in *. rewrite I1, I2, I3, I4, I5, I6, I7, I8, I9, C1, T, P.
    destruct (start_read pc c_req0 c_sense0 c_cmd0 c_data0 c_rdyd0 c_end0 c_done0 c_keys0 c_obuf0 c_iflg0 c_iptr0 c_optr0 c_ilen0 c_home0 c_cancel0 c_eob0 c_sent0 bi PC) as [b1 E1].
    destruct (take_keys l F true false c_data0 c_keys0 c_obuf0 c_iptr0 c_sent0 b1 C2 Q1 QI) as (f2 & r2 & b2 & d2 & k2 & i2 & E2 & L2 & I2' & D2).
    destruct (end_read f2 r2 d2 k2 c_obuf0 i2 (c_sent0 ++ l) b2) as [b3 E3].
    eexists; eexists. split.
    - unfold read_line. eapply talk_two; [exact E1| |reflexivity|rewrite app_nil_l; reflexivity]. eapply talk_two; [exact E2|exact E3|reflexivity|rewrite app_nil_r; reflexivity].
    - cbn. repeat split.
  Qed.
End Dialogue.
