(** Whole write commands. *)
From Verif Require Import P1443.Spec P1443.Proofs P1443.Proofs2 P1443.Proofs3.

Lemma talk_app a l1 : forall l2 s t bi s1 t1 b1 st1 d1, talk a l1 s t bi = Ok (s1, t1, b1, st1, d1) ->
  talk a (l1 ++ l2) s t bi = let* (s2, t2, b2, st2, d2) := talk a l2 s1 t1 b1 in Ok (s2, t2, b2, st1 ++ st2, d1 ++ d2).
Proof.
  induction l1 as [|x l1 IH]; intros l2 s t bi s1 t1 b1 st1 d1 E.
  - cbn in E. injection E as <- <- <- <- <-. cbn [app]. destruct (talk a l2 s t bi) as [[[[[? ?] ?] ?] ?]| |]; reflexivity.
  - cbn [app]. destruct x as [o bo|].
    + cbn [talk] in E |- *. destruct (dev_step a s (chan_tags o t) bo bi) as [[[s' t'] b']| |]; try discriminate. cbn [bind] in *.
      destruct (talk a l1 s' t' b') as [[[[[s2 t2] b2] st2] d2]| |] eqn:E1; try discriminate. cbn [bind] in E. injection E as <- <- <- <- <-.
      rewrite (IH l2 _ _ _ _ _ _ _ _ E1). destruct (talk a l2 s2 t2 b2) as [[[[[s3 t3] b3] st3] d3]| |]; cbn [bind]; [rewrite <- !app_assoc; reflexivity|reflexivity|reflexivity].
    + cbn [talk] in E |- *. destruct (fire s) as [s'|]; [|discriminate]. apply IH. exact E.
Qed.

Lemma talk_cyc a o bo l s t bi s1 t1 b1 s2 t2 b2 st d st' d' :
  dev_step a s (chan_tags o t) bo bi = Ok (s1, t1, b1) -> talk a l s1 t1 b1 = Ok (s2, t2, b2, st, d) ->
  st' = (if negb (stai t) && stai t1 then [Z.land b1 255] else []) ++ st -> d' = (if negb (srvi t) && srvi t1 then [Z.land b1 255] else []) ++ d ->
  talk a (Cyc o bo :: l) s t bi = Ok (s2, t2, b2, st', d').
Proof. intros E1 E2 -> ->. cbn [talk]. rewrite E1. cbn [bind]. rewrite E2. reflexivity. Qed.
Lemma talk_nil a s t bi : talk a [] s t bi = Ok (s, t, bi, [], []). Proof. reflexivity. Qed.

Section Write.
  Variables a pa wa : Z.
  Hypothesis A : is_byte a.
  Hypothesis PA : with_parity a = Ok pa.
  Lemma pa_low : Z.land pa 255 = a.
  Proof. destruct (with_parity_ok a A) as (y & E & _ & L & _). rewrite PA in E. injection E as <-. exact L. Qed.
  Lemma pa_good : bad_parity pa = Ok false. Proof. exact (parity_good a pa A PA). Qed.

  (** The shapes of the printer while data is sent: between two bytes, and just polled. *)
  Definition shape (first req : bool) (stk : bool) sense cmd status data done f buf col row cnt pend : dev :=
    mkD (if first then P_OPR else P_DATA_I) true req false stk false sense cmd status data true false done (Some f) buf col row true cnt pend.
  Definition shape_tags (first : bool) : tags :=
    if first then mkT false false false false false true true true false false false false
    else mkT false false true false false true true true false false false false.

  Ltac rd := cbn -[obey with_parity bad_parity print_event Z.add skip_bad space_bad upd Z.ltb Z.leb Z.to_nat].
  Ltac nrm := cbv beta iota zeta delta [set_st set_sel set_req set_adr set_stk set_bsy set_sense set_cmd set_status set_data set_rdyd set_end set_done set_file set_buf set_col set_row set_ready set_cnt set_pend p_st p_sel p_req p_adr p_stk p_bsy p_sense p_cmd p_status p_data p_rdyd p_end p_done p_file p_buf p_col p_row p_ready p_cnt p_pend or_sense or_status clr_status begin_cmd set_selo_opri set_selo set_opri set_adri set_stai set_srvi set_reqi chan_tags selo adro cmdo srvo supo hldo opro opri adri stai srvi reqi o_sel o_adr o_cmd o_srv o_sup o_hld o_select o_poll o_command o_service held nothing free].
  Ltac cycs tac fin := first [apply talk_nil | eapply talk_cyc; [unfold dev_step; rd; repeat (progress (tac; rd)); nrm; reflexivity | cycs tac fin | cbn; fin; reflexivity | cbn; fin; reflexivity ]].
  Lemma obey_write c s : Z.land c 7 = 1 -> skip_bad c = false -> space_bad c = false -> obey c s = Ok (set_rdyd true (set_sense 0 s)).
  Proof. intros L A1 A2. unfold obey. rewrite L, A1, A2. reflexivity. Qed.
  Lemma start_write c pc req bi stk sense cmd status data rdyd en done f buf col row cnt pend :
    is_byte c -> with_parity c = Ok pc -> Z.land c 7 = 1 -> skip_bad c = false -> space_bad c = false -> length buf = 144%nat ->
    exists b1, talk a (start_io pa pc) (mkD P_IDLE false req false stk false sense cmd status data rdyd en done (Some f) buf col row true cnt pend) free bi
      = Ok (shape true req stk 0 c 0 data false f buf 0 row 0 pend, shape_tags true, b1, [0], []).
  Proof.
    intros C PC L SK SP LB. pose proof (parity_good c pc C PC) as GC. assert (LC : Z.land pc 255 = c).
    { destruct (with_parity_ok c C) as (y & E & _ & LL & _). rewrite PC in E. injection E as <-. exact LL. }
    pose proof pa_low as LA. pose proof pa_good as GA. destruct (parity_odd 0 byte0) as (w0 & E0 & _). assert (L0 : Z.land w0 255 = 0).
    { destruct (with_parity_ok 0 byte0) as (y & E & _ & LL & _). rewrite E0 in E. injection E as <-. exact LL. }
    assert (C0 : (c =? 0) = false). { apply Z.eqb_neq. intros ->. discriminate. }
    eexists. unfold start_io.
    cycs ltac:(rewrite ?LA, ?Z.eqb_refl, ?GA, ?PA, ?LC, ?(obey_write c _ L SK SP), ?GC, ?E0, ?C0) ltac:(rewrite ?L0).
  Qed.
  Lemma give_byte first req b pb bi stk sense cmd status data done f buf col row cnt pend :
    is_byte b -> with_parity b = Ok pb -> bit cmd 1 = true -> (cmd =? 0) = false -> (cmd =? 4) = false -> bit status 3 = false -> bit status SNS_CHNEND = false ->
    0 <= col < 119 -> 0 <= cnt < 2 ->
    talk a (give pb) (shape first req stk sense cmd status data done f buf col row cnt pend) (shape_tags first) bi
      = Ok (shape true req stk sense cmd status pb done f (upd buf (Z.to_nat col) b) (col + 1) row (cnt + 1) pend, shape_tags true, bi, [], [Z.land bi 255]).
  Proof.
    intros B PB C1 C0 C4 S3 S8 CO CN. pose proof (parity_good b pb B PB) as GB. assert (LB : Z.land pb 255 = b).
    { destruct (with_parity_ok b B) as (y & E & _ & LL & _). rewrite PB in E. injection E as <-. exact LL. }
    assert (X1 : (col <? 0) || (144 <=? col) = false) by (apply orb_false_iff; split; lia).
    assert (X2 : (cnt + 1 =? 3) = false) by lia. assert (X3 : (col + 1 =? 120) = false) by lia.
    unfold give, shape, shape_tags. destruct first; cycs ltac:(rewrite ?C1, ?GB, ?X1, ?LB, ?X2, ?X3, ?C0, ?S3, ?S8) ltac:(idtac).
  Qed.
  Lemma give_third first req b pb bi stk sense cmd status data done f buf col row pend :
    is_byte b -> with_parity b = Ok pb -> bit cmd 1 = true -> (cmd =? 0) = false -> (cmd =? 4) = false -> bit status 3 = false -> bit status SNS_CHNEND = false ->
    0 <= col < 119 ->
    exists d, talk a (give pb ++ again) (shape first req stk sense cmd status data done f buf col row 2 pend) (shape_tags first) bi
      = Ok (shape false true stk sense cmd status pb done f (upd buf (Z.to_nat col) b) (col + 1) row 0 pend, shape_tags false, pa, [], d).
  Proof.
    intros B PB C1 C0 C4 S3 S8 CO. pose proof (parity_good b pb B PB) as GB. assert (LB : Z.land pb 255 = b).
    { destruct (with_parity_ok b B) as (y & E & _ & LL & _). rewrite PB in E. injection E as <-. exact LL. }
    assert (X1 : (col <? 0) || (144 <=? col) = false) by (apply orb_false_iff; split; lia).
    assert (X2 : (2 + 1 =? 3) = true) by lia. assert (X3 : (col + 1 =? 120) = false) by lia.
    unfold give, again, shape, shape_tags. cbn [app]. destruct first, req; eexists;
      cycs ltac:(rewrite ?C1, ?GB, ?X1, ?LB, ?X2, ?X3, ?C0, ?S3, ?S8, ?PA) ltac:(idtac).
  Qed.
  Fixpoint fill (buf : list Z) (col : nat) (l : list Z) : list Z := match l with [] => buf | b :: l => fill (upd buf col b) (S col) l end.
  Lemma give_bytes cmd status : bit cmd 1 = true -> (cmd =? 0) = false -> (cmd =? 4) = false -> bit status 3 = false -> bit status SNS_CHNEND = false ->
    forall l pl k, with_parities l pl -> (k <= 2)%nat -> forall first req bi stk sense data done f buf col row pend,
    0 <= col -> col + Z.of_nat (length l) < 120 ->
    exists first' req' bi' data' cnt' d, (cnt' = Z.modulo (2 - Z.of_nat k + Z.of_nat (length l)) 3) /\ talk a (give_all k pl) (shape first req stk sense cmd status data done f buf col row (2 - Z.of_nat k) pend) (shape_tags first) bi
      = Ok (shape first' req' stk sense cmd status data' done f (fill buf (Z.to_nat col) l) (col + Z.of_nat (length l)) row cnt' pend, shape_tags first', bi', [], d).
  Proof.
    intros C1 C0 C4 S3 S8. induction l as [|b l IH]; intros pl k F K first req bi stk sense data done f buf col row pend CO CL.
    - inversion F; subst. cbn [give_all length fill]. rewrite !Z.add_0_r. exists first, req, bi, data, (2 - Z.of_nat k), []. split; [symmetry; apply Z.mod_small; lia|reflexivity].
    - inversion F as [|? pb ? pl' [B PB] F']; subst. cbn [length] in CL. rewrite Nat2Z.inj_succ in CL.
      cbn [give_all length fill]. replace (S (Z.to_nat col)) with (Z.to_nat (col + 1)) by lia. replace (col + Z.of_nat (S (length l))) with (col + 1 + Z.of_nat (length l)) by lia.
      destruct k as [|k].
      + destruct (give_third first req b pb bi stk sense cmd status data done f buf col row pend B PB C1 C0 C4 S3 S8 ltac:(lia)) as [d E].
        replace (2 - Z.of_nat 0) with 2 by lia. rewrite app_assoc. rewrite (talk_app _ _ _ _ _ _ _ _ _ _ _ E).
        destruct (IH pl' 2%nat F' ltac:(lia) false true pa stk sense pb done f (upd buf (Z.to_nat col) b) (col + 1) row pend ltac:(lia) ltac:(lia)) as (fi & re & bi' & da & cn & d' & EC & E').
        change (2 - Z.of_nat 2) with 0 in E'. rewrite E'. cbn [bind]. exists fi, re, bi', da, cn. eexists. split; [|reflexivity]. rewrite EC. cbn [length].
        change (2 - Z.of_nat 2) with 0. replace (2 + Z.of_nat (S (length l))) with (0 + Z.of_nat (length l) + 1 * 3) by lia. symmetry. apply Z.mod_add. lia.
      + pose proof (give_byte first req b pb bi stk sense cmd status data done f buf col row (2 - Z.of_nat (S k)) pend B PB C1 C0 C4 S3 S8 ltac:(lia) ltac:(lia)) as E.
        rewrite (talk_app _ _ _ _ _ _ _ _ _ _ _ E).
        destruct (IH pl' k F' ltac:(lia) true req bi stk sense pb done f (upd buf (Z.to_nat col) b) (col + 1) row pend ltac:(lia) ltac:(lia)) as (fi & re & bi' & da & cn & d' & EC & E').
        replace (2 - Z.of_nat (S k) + 1) with (2 - Z.of_nat k) by lia. rewrite E'. cbn [bind]. exists fi, re, bi', da, cn. eexists. split; [|reflexivity]. rewrite EC. cbn [length].
        f_equal. lia.
  Qed.
  Lemma stop_data first req bi stk sense cmd status data done f buf col row cnt pend :
    bit cmd 1 = true -> (cmd =? 0) = false -> (cmd =? 4) = false -> bit status 3 = false -> bit status SNS_CHNEND = false ->
    exists d, talk a no_more (shape first req stk sense cmd status data done f buf col row cnt pend) (shape_tags first) bi
      = Ok (mkD P_OPR true req false stk false sense cmd status data false true done (Some f) buf col row true cnt pend, shape_tags true, bi, [], d).
  Proof.
    intros C1 C0 C4 S3 S8. unfold no_more, shape, shape_tags. destruct first; eexists; cycs ltac:(rewrite ?C1, ?C0, ?C4, ?S3, ?S8) ltac:(idtac).
  Qed.
  (** The end, once the line is printed: [pr] is the printer after print_line. *)
  Lemma end_write req bi stk sense cmd status data f buf col row cnt pend f1 buf1 row1 sense1 status1 tm :
    Z.land cmd 7 = 1 -> (cmd =? 4) = false -> tm <> 0 -> status1 = 0 -> sense1 = 0 ->
    print_line (mkD P_OPR true req false stk false sense cmd status data false true false (Some f) buf col row true cnt pend)
      = Ok (mkD P_OPR true req false stk false sense1 cmd status1 data false true false (Some f1) buf1 col row1 true cnt pend, tm) ->
    exists bi' d, talk a take_end (mkD P_OPR true req false stk false sense cmd status data false true false (Some f) buf col row true cnt pend) (shape_tags true) bi
      = Ok (mkD P_IDLE false true false stk false 0 0 4 data false true true (Some f1) buf1 col row1 true cnt pend, free, bi', [8; 4], d).
  Proof.
    intros C1 C4 TM -> -> PR. unfold take_end, shape_tags.
    assert (PE : print_event (mkD P_OPR true req false stk false sense cmd status data false true false (Some f) buf col row true cnt pend)
      = Ok (mkD P_OPR true req false stk false 0 cmd 0 data false true false (Some f1) buf1 col row1 true cnt (S pend))).
    { unfold print_event. rewrite PR. cbn [bind]. replace (tm =? 0) with false by lia. reflexivity. }
    destruct (parity_odd 8 ltac:(apply byte_const; reflexivity)) as (w8 & E8 & _). assert (L8 : Z.land w8 255 = 8).
    { destruct (with_parity_ok 8 ltac:(lia)) as (y & E & _ & LL & _). rewrite E8 in E. injection E as <-. exact LL. }
    destruct (parity_odd 4 ltac:(apply byte_const; reflexivity)) as (w4 & E4 & _). assert (L4 : Z.land w4 255 = 4).
    { destruct (with_parity_ok 4 ltac:(lia)) as (y & E & _ & LL & _). rewrite E4 in E. injection E as <-. exact LL. }
    assert (X1 : talk a take_chan_end (mkD P_OPR true req false stk false sense cmd status data false true false (Some f) buf col row true cnt pend) (shape_tags true) bi
      = Ok (mkD P_WAIT false req false stk false 0 cmd 0 data false true false (Some f1) buf1 col row1 true cnt (S pend), free, w8, [8], [])).
    { unfold take_chan_end, shape_tags. cycs ltac:(rewrite ?C1, ?C4, ?PE, ?E8, ?PA; try unfold SNS_CHNEND) ltac:(rewrite ?L8). }
    rewrite (talk_app _ _ _ _ _ _ _ _ _ _ _ X1). cbn [talk]. unfold fire. cbn [p_pend]. nrm.
    assert (X2 : exists d, talk a take_dev_end (mkD P_WAIT false req false stk false 0 cmd 0 data false true true (Some f1) buf1 col row1 true cnt pend) free w8
      = Ok (mkD P_IDLE false true false stk false 0 0 4 data false true true (Some f1) buf1 col row1 true cnt pend, free, w4, [4], d)).
    { unfold take_dev_end, free. eexists. destruct req; cycs ltac:(rewrite ?E4, ?PA; try unfold SNS_DEVEND) ltac:(rewrite ?L4). }
    destruct X2 as [d X2]. unfold free in X2 |- *. rewrite X2. cbn [bind]. eexists; eexists. reflexivity.
  Qed.

  Lemma fill_length l : forall buf c, length (fill buf c l) = length buf.
  Proof. induction l as [|b l IH]; intros buf c; [reflexivity|]. cbn [fill]. rewrite IH, upd_length. reflexivity. Qed.
  Lemma fill_bytes l : Forall is_byte l -> forall buf c, Forall is_byte buf -> Forall is_byte (fill buf c l).
  Proof. induction l as [|b l IH]; intros F buf c B; [exact B|]. inversion F; subst. cbn [fill]. apply IH; [assumption|]. apply upd_bytes; assumption. Qed.
  Lemma upd_firstn (buf : list Z) : forall c b, (c < length buf)%nat -> firstn (S c) (upd buf c b) = firstn c buf ++ [b].
  Proof. induction buf as [|x buf IH]; intros c b H; [cbn in H; lia|]. destruct c; [reflexivity|]. cbn [upd firstn app]. f_equal. apply IH. cbn in H. lia. Qed.
  Lemma upd_firstn_le (buf : list Z) : forall k c b, (k <= c)%nat -> firstn k (upd buf c b) = firstn k buf.
  Proof. induction buf as [|x buf IH]; intros k c b H; [destruct c; reflexivity|]. destruct k; [reflexivity|]. destruct c; [lia|]. cbn. f_equal. apply IH. lia. Qed.
  Lemma fill_firstn l : forall buf c, (c + length l <= length buf)%nat -> firstn (c + length l) (fill buf c l) = firstn c buf ++ l.
  Proof.
    induction l as [|b l IH]; intros buf c H; cbn [fill length] in *; [rewrite Nat.add_0_r, app_nil_r; reflexivity|].
    replace (c + S (length l))%nat with (S c + length l)%nat by lia. rewrite IH by (rewrite upd_length; lia). rewrite upd_firstn by lia. rewrite <- app_assoc. reflexivity.
  Qed.
  Lemma space_cmd_facts n : 0 <= n <= 3 -> let c := space_cmd true n in is_byte c /\ Z.land c 7 = 1 /\ skip_bad c = false /\ space_bad c = false /\ bit c 1 = true /\ (c =? 0) = false /\ (c =? 4) = false /\ lines_of c = n.
  Proof. intros H. assert (X : n = 0 \/ n = 1 \/ n = 2 \/ n = 3) by lia. destruct X as [X | [X | [X | X]]]; subst n; cbv; repeat split; discriminate. Qed.
  Lemma not_crossed n : forall row x, (forall i, row + 1 <= i < row + 1 + Z.of_nat n -> i <> x + 1) -> crosses n row x = false.
  Proof.
    induction n as [|n IH]; intros row x H; [reflexivity|]. cbn [crosses]. apply orb_false_iff. split.
    - specialize (H (row + 1) ltac:(lia)). lia.
    - apply IH. intros i I. apply H. lia.
  Qed.
  Lemma write_whole s f n pc l pl bi : idle s f -> 0 <= n <= 3 -> with_parity (space_cmd true n) = Ok pc -> with_parities l pl -> (length l < 120)%nat ->
    0 <= p_row s -> line s + n <= 67 -> (forall i, line s <= i < line s + n -> i <> hole 9 /\ i <> hole 12) ->
    exists s' b' d, talk a (write_line pa pc pl) s free bi = Ok (s', free, b', [0; 8; 4], d) /\
      idle s' (f ++ cut (map glyph l) ++ newlines (Z.to_nat n)) /\ line s' = line s + n /\ p_sense s' = 0 /\ p_pend s' = p_pend s.
  Proof.
    intros I N PC F LL R LN NH. destruct (space_cmd_facts n N) as (C1 & C2 & C3 & C4 & C5 & C6 & C7 & C8). set (c := space_cmd true n) in *. clearbody c.
    destruct s as [st sel req adr stk bsy sense cmd status data rdyd en done file buf col row ready cnt pend].
    destruct I as (I1 & I2 & I3 & I4 & I5 & I6 & I7 & I8). cbn in I1, I2, I3, I4, I5, I6, I7, I8, R, LN. unfold line in *. cbn [p_row] in *. subst st sel adr bsy ready file.
    destruct (start_write c pc req bi stk sense cmd status data rdyd en done f buf col row cnt pend C1 PC C2 C3 C4 I7) as [b1 E1].
    unfold write_line. assert (PLL : length pl = length l). { clear -F. induction F; cbn; congruence. }
    replace (length pl <? 120)%nat with true by (symmetry; apply Nat.ltb_lt; lia). rewrite (talk_app _ _ _ _ _ _ _ _ _ _ _ E1).
    destruct (give_bytes c 0 C5 C6 C7 eq_refl eq_refl l pl 2 F ltac:(lia) true req b1 stk 0 data false f buf 0 row pend ltac:(lia) ltac:(lia)) as (fi & re & b2 & da & cn & d2 & _ & E2).
    change (2 - Z.of_nat 2) with 0 in E2. rewrite (talk_app _ _ _ _ _ _ _ _ _ _ _ E2). change (0 + Z.of_nat (length l)) with (Z.of_nat (length l)) in *. change (Z.to_nat 0) with O in *.
    destruct (stop_data fi re b2 stk 0 c 0 da false f (fill buf 0 l) (Z.of_nat (length l)) row cn pend C5 C6 C7 eq_refl eq_refl) as [d3 E3].
    rewrite (talk_app _ _ _ _ _ _ _ _ _ _ _ E3).
    assert (FB : Forall is_byte l). { clear -F. induction F as [|x y l pl [B _] F IH]; constructor; assumption. }
    assert (TX : firstn (Z.to_nat (Z.of_nat (length l))) (fill buf 0 l) = l). { rewrite Nat2Z.id. exact (fill_firstn l buf 0 ltac:(cbn; lia)). }
    set (P := mkD P_OPR true re false stk false 0 c 0 da false true false (Some f) (fill buf 0 l) (Z.of_nat (length l)) row true cn pend).
    assert (PL : print_line P = Ok (mkD P_OPR true re false stk false 0 c 0 da false true false (Some (f ++ cut (map glyph l) ++ newlines (Z.to_nat n))) (repeat 64 144)
       (Z.of_nat (length l)) (row + n) true cn pend, 31 + 5 * n)).
    { assert (OB : ok_buf P) by (split; [cbn; lia|apply fill_bytes; assumption]).
      pose proof (print_space P f OB (or_introl C2) eq_refl R) as PS. cbn [p_cmd P] in PS. rewrite C8 in PS. specialize (PS ltac:(lia) ltac:(cbn; lia)). cbv zeta in PS.
      rewrite PS. unfold wr. rewrite C2. cbn [Z.eqb Pos.eqb]. unfold checked. cbn [andb p_row P].
      rewrite (not_crossed (Z.to_nat n) row 62) by (intros i Hi; apply (NH i); rewrite Z2Nat.id in Hi by lia; exact Hi).
      rewrite (not_crossed (Z.to_nat n) row 60) by (intros i Hi; apply (NH i); rewrite Z2Nat.id in Hi by lia; exact Hi).
      unfold moved, text. cbn [p_col p_buf P p_row]. rewrite TX. rewrite Z2Nat.id by lia. reflexivity. }
    destruct (end_write re b2 stk 0 c 0 da f (fill buf 0 l) (Z.of_nat (length l)) row cn pend _ _ _ 0 0 (31 + 5 * n) C2 C7 ltac:(lia) eq_refl eq_refl PL) as (b4 & d4 & E4).
    fold P in E4. rewrite E4. cbn [bind]. do 3 eexists. split; [reflexivity|]. cbn. split; [|repeat split; lia].
    unfold idle. cbn. repeat split. apply blanks_bytes.
  Qed.
End Write.
