(** A full line; whole commands of every length. *)
From Verif Require Import P1443.Spec P1443.Proofs P1443.Proofs2 P1443.Proofs3 P1443.Proofs4.

Lemma give_all_app pl : forall k l2, (k <= 2)%nat -> give_all k (pl ++ l2) = give_all k pl ++ give_all (Z.to_nat (2 - Z.modulo (2 - Z.of_nat k + Z.of_nat (length pl)) 3)) l2.
Proof.
  induction pl as [|b pl IH]; intros k l2 K.
  - cbn [app give_all length]. rewrite Z.add_0_r, Z.mod_small by lia. f_equal. lia.
  - cbn [app give_all length]. destruct k as [|k].
    + rewrite IH by lia. rewrite <- !app_assoc. do 4 f_equal. change (2 - Z.of_nat 2) with 0. change (2 - Z.of_nat 0) with 2. rewrite <- (Z.mod_add (0 + Z.of_nat (length pl)) 1 3) by lia. f_equal. f_equal. lia.
    + rewrite IH by lia. rewrite <- !app_assoc. do 4 f_equal. f_equal. lia.
Qed.
Section Full.
  Variables a pa : Z.
  Hypothesis A : is_byte a.
  Hypothesis PA : with_parity a = Ok pa.
  Ltac rd := cbn -[obey with_parity bad_parity print_event Z.add skip_bad space_bad upd Z.ltb Z.leb Z.to_nat].
  Ltac nrm := cbv beta iota zeta delta [set_st set_sel set_req set_adr set_stk set_bsy set_sense set_cmd set_status set_data set_rdyd set_end set_done set_file set_buf set_col set_row set_ready set_cnt set_pend p_st p_sel p_req p_adr p_stk p_bsy p_sense p_cmd p_status p_data p_rdyd p_end p_done p_file p_buf p_col p_row p_ready p_cnt p_pend or_sense or_status clr_status begin_cmd set_selo_opri set_selo set_opri set_adri set_stai set_srvi set_reqi chan_tags selo adro cmdo srvo supo hldo opro opri adri stai srvi reqi o_sel o_adr o_cmd o_srv o_sup o_hld o_select o_poll o_command o_service held nothing free].
  Ltac cycs tac fin := first [apply talk_nil | eapply talk_cyc; [unfold dev_step; rd; repeat (progress (tac; rd)); nrm; reflexivity | cycs tac fin | cbn; fin; reflexivity | cbn; fin; reflexivity ]].
  Lemma last_byte first req b pb bi stk cmd data f buf row pend f1 buf1 row1 tm :
    is_byte b -> with_parity b = Ok pb -> bit cmd 1 = true -> (cmd =? 0) = false -> (cmd =? 4) = false -> Z.land cmd 7 = 1 -> tm <> 0 ->
    print_line (mkD P_OPR false req false stk false 0 cmd 0 pb false true false (Some f) (upd buf (Z.to_nat 119) b) (119 + 1) row true 0 pend)
      = Ok (mkD P_OPR false req false stk false 0 cmd 0 pb false true false (Some f1) buf1 (119 + 1) row1 true 0 pend, tm) ->
    exists d, talk a (give pb ++ again) (shape first req stk 0 cmd 0 data false f buf 119 row 2 pend) (shape_tags first) bi
      = Ok (mkD P_DATA_END true true false stk false 0 cmd 8 pb false true false (Some f1) buf1 (119 + 1) row1 true 0 (S pend), shape_tags false, pa, [], d).
  Proof.
    intros B PB C1 C0 C4 C7 TM PR. pose proof (parity_good b pb B PB) as GB. assert (LB : Z.land pb 255 = b).
    { destruct (with_parity_ok b B) as (y & E & _ & LL & _). rewrite PB in E. injection E as <-. exact LL. }
    assert (PE : print_event (mkD P_OPR false req false stk false 0 cmd 0 pb false true false (Some f) (upd buf (Z.to_nat 119) b) (119 + 1) row true 0 pend)
      = Ok (mkD P_OPR false req false stk false 0 cmd 0 pb false true false (Some f1) buf1 (119 + 1) row1 true 0 (S pend))).
    { unfold print_event. rewrite PR. cbn [bind]. replace (tm =? 0) with false by lia. reflexivity. }
    assert (X1 : (119 <? 0) || (144 <=? 119) = false) by reflexivity.
    assert (X2 : (2 + 1 =? 3) = true) by lia. assert (X3 : (119 + 1 =? 120) = true) by lia.
    unfold give, again, shape, shape_tags. cbn [app]. destruct first, req; eexists;
      cycs ltac:(rewrite ?C1, ?GB, ?X1, ?LB, ?X2, ?X3, ?C0, ?C4, ?C7, ?PE, ?PA; try unfold SNS_CHNEND) ltac:(idtac).
  Qed.
  Lemma end_full bi req stk cmd data f buf col row cnt pend :
    exists bi' d, talk a take_end (mkD P_DATA_END true req false stk false 0 cmd 8 data false true false (Some f) buf col row true cnt (S pend)) (shape_tags false) bi
      = Ok (mkD P_IDLE false true false stk false 0 0 4 data false true true (Some f) buf col row true cnt pend, free, bi', [8; 4], d).
  Proof.
    destruct (parity_odd 8 ltac:(apply byte_const; reflexivity)) as (w8 & E8 & _). assert (L8 : Z.land w8 255 = 8).
    { destruct (with_parity_ok 8 ltac:(lia)) as (y & E & _ & LL & _). rewrite E8 in E. injection E as <-. exact LL. }
    destruct (parity_odd 4 ltac:(apply byte_const; reflexivity)) as (w4 & E4 & _). assert (L4 : Z.land w4 255 = 4).
    { destruct (with_parity_ok 4 ltac:(lia)) as (y & E & _ & LL & _). rewrite E4 in E. injection E as <-. exact LL. }
    assert (X1 : talk a take_chan_end (mkD P_DATA_END true req false stk false 0 cmd 8 data false true false (Some f) buf col row true cnt (S pend)) (shape_tags false) bi
      = Ok (mkD P_WAIT false req false stk false 0 cmd 0 data false true false (Some f) buf col row true cnt (S pend), free, w8, [8], [])).
    { unfold take_chan_end, shape_tags. cycs ltac:(rewrite ?E8, ?PA; try unfold SNS_CHNEND) ltac:(rewrite ?L8). }
    unfold take_end. rewrite (talk_app _ _ _ _ _ _ _ _ _ _ _ X1). cbn [talk]. unfold fire. cbn [p_pend]. nrm.
    assert (X2 : exists d, talk a take_dev_end (mkD P_WAIT false req false stk false 0 cmd 0 data false true true (Some f) buf col row true cnt pend) free w8
      = Ok (mkD P_IDLE false true false stk false 0 0 4 data false true true (Some f) buf col row true cnt pend, free, w4, [4], d)).
    { unfold take_dev_end, free. eexists. destruct req; cycs ltac:(rewrite ?E4, ?PA; try unfold SNS_DEVEND) ltac:(rewrite ?L4). }
    destruct X2 as [d X2]. unfold free in X2 |- *. rewrite X2. cbn [bind]. eexists; eexists. reflexivity.
  Qed.
  Lemma fill_app l1 l2 : forall buf c, fill buf c (l1 ++ l2) = fill (fill buf c l1) (c + length l1) l2.
  Proof. induction l1 as [|b l1 IH]; intros buf c; cbn; [rewrite Nat.add_0_r; reflexivity|]. rewrite IH. f_equal. lia. Qed.
  Lemma write_full s f n pc l pl bi : idle s f -> 0 <= n <= 3 -> with_parity (space_cmd true n) = Ok pc -> with_parities l pl -> (length l = 120)%nat ->
    0 <= p_row s -> line s + n <= 67 -> (forall i, line s <= i < line s + n -> i <> hole 9 /\ i <> hole 12) ->
    exists s' b' d, talk a (write_line pa pc pl) s free bi = Ok (s', free, b', [0; 8; 4], d) /\
      idle s' (f ++ cut (map glyph l) ++ newlines (Z.to_nat n)) /\ line s' = line s + n /\ p_sense s' = 0 /\ p_pend s' = p_pend s.
  Proof.
    intros I N PC F LL R LN NH.
    destruct s as [st sel req adr stk bsy sense cmd status data rdyd en done file buf col row ready cnt pend].
    destruct I as (I1 & I2 & I3 & I4 & I5 & I6 & I7 & I8). cbn in I1, I2, I3, I4, I5, I6, I7, I8, R, LN. unfold line in *. cbn [p_row] in *.     assert (SP : exists l1 b, l = l1 ++ [b] /\ length l1 = 119%nat).
    { destruct (exists_last (l := l)) as (l1 & b & E); [destruct l; discriminate|]. exists l1, b. split; [exact E|]. rewrite E, app_length in LL. cbn in LL. lia. }
    destruct SP as (l1 & b & -> & L1). apply Forall2_app_inv_l in F. destruct F as (pl1 & pl2 & F1 & F2 & ->).
    inversion F2 as [|? pb ? ? [B PB] F3]; subst. inversion F3; subst. clear F2 F3.
    destruct (space_cmd_facts n N) as (C1 & C2 & C3 & C4 & C5 & C6 & C7 & C8). set (c := space_cmd true n) in *. clearbody c.
    assert (PL1 : length pl1 = 119%nat). { rewrite <- L1. clear -F1. induction F1; cbn; congruence. }
    destruct (start_write a pa A PA c pc req bi stk sense cmd status data rdyd en done f buf col row cnt pend C1 PC C2 C3 C4 I7) as [b1 E1].
    unfold write_line. replace (length (pl1 ++ [pb]) <? 120)%nat with false by (rewrite app_length, PL1; reflexivity). cbn [app].
    rewrite (talk_app _ _ _ _ _ _ _ _ _ _ _ E1). rewrite give_all_app by lia. rewrite PL1. change (Z.to_nat (2 - (2 - Z.of_nat 2 + Z.of_nat 119) mod 3)) with O.
    destruct (give_bytes a pa PA c 0 C5 C6 C7 eq_refl eq_refl l1 pl1 2 F1 ltac:(lia) true req b1 stk 0 data false f buf 0 row pend ltac:(lia) ltac:(lia)) as (fi & re & b2 & da & cn & d2 & EC & E2).
    rewrite L1 in EC. change ((2 - Z.of_nat 2 + Z.of_nat 119) mod 3) with 2 in EC. subst cn.
    change (2 - Z.of_nat 2) with 0 in E2. rewrite <- app_assoc. rewrite (talk_app _ _ _ _ _ _ _ _ _ _ _ E2). rewrite L1. change (0 + Z.of_nat 119) with 119. change (Z.to_nat 0) with O.
    cbn [give_all]. rewrite app_nil_r.
    assert (FB : Forall is_byte (l1 ++ [b])). { apply Forall_app. split; [|constructor; [exact B|constructor]]. clear -F1. induction F1 as [|x y l pl [B _] F IH]; constructor; assumption. }
    set (bf := upd (fill buf 0 l1) (Z.to_nat 119) b).
    assert (BF : bf = fill buf 0 (l1 ++ [b])). { rewrite fill_app, L1. reflexivity. }
    assert (TX : firstn (Z.to_nat (119 + 1)) bf = l1 ++ [b]).
    { rewrite BF. pose proof (fill_firstn (l1 ++ [b]) buf 0) as Q. rewrite app_length, L1 in Q. cbn [length Nat.add] in Q. specialize (Q ltac:(lia)). exact Q. }
    set (P := mkD P_OPR false re false stk false 0 c 0 pb false true false (Some f) bf (119 + 1) row true 0 pend).
    assert (PL : print_line P = Ok (mkD P_OPR false re false stk false 0 c 0 pb false true false (Some (f ++ cut (map glyph (l1 ++ [b])) ++ newlines (Z.to_nat n))) (repeat 64 144)
       (119 + 1) (row + n) true 0 pend, 31 + 5 * n)).
    { assert (OB : ok_buf P) by (split; [cbn; lia|cbn; rewrite BF; apply fill_bytes; assumption]).
      pose proof (print_space P f OB (or_introl C2) eq_refl R) as PS. cbn [p_cmd P] in PS. rewrite C8 in PS. specialize (PS ltac:(lia) ltac:(cbn; lia)). cbv zeta in PS.
      rewrite PS. unfold wr. rewrite C2. cbn [Z.eqb Pos.eqb]. unfold checked. cbn [andb p_row P].
      rewrite (not_crossed (Z.to_nat n) row 62) by (intros i Hi; apply (NH i); rewrite Z2Nat.id in Hi by lia; exact Hi).
      rewrite (not_crossed (Z.to_nat n) row 60) by (intros i Hi; apply (NH i); rewrite Z2Nat.id in Hi by lia; exact Hi).
      unfold moved, text. cbn [p_col p_buf P p_row]. rewrite TX. rewrite Z2Nat.id by lia. reflexivity. }
    destruct (last_byte fi re b pb b2 stk c da f (fill buf 0 l1) row pend _ _ _ (31 + 5 * n) B PB C5 C6 C7 C2 ltac:(lia) PL) as (d3 & E3).
    rewrite (talk_app _ _ _ _ _ _ _ _ _ _ _ E3).
    destruct (end_full pa true stk c pb (f ++ cut (map glyph (l1 ++ [b])) ++ newlines (Z.to_nat n)) (repeat 64 144) (119 + 1) (row + n) 0 pend) as (b4 & d4 & E4).
    rewrite E4. cbn [bind]. do 3 eexists. split; [reflexivity|]. cbn [p_row p_sense p_pend]. split; [|repeat split; lia].
    unfold idle. cbn -[cut]. repeat split. apply blanks_bytes.
  Qed.
End Full.
