(** What is left: waiting, the ending status, keys, commands that never end. *)
From Verif Require Import P1443.Spec P1443.Proofs P1443.Proofs2 P1443.Proofs3 P1443.Proofs4 P1443.Proofs5 P1443.Proofs6 P1443.Proofs7.

Lemma crosses_iff n : forall row x, crosses n row x = (row <=? x) && (x <? row + Z.of_nat n).
Proof. induction n as [|n IH]; intros row x; cbn [crosses]; [lia|]. rewrite IH. lia. Qed.
Lemma space_all s f w n : ok_buf s -> p_cmd s = space_cmd w n -> 0 <= n <= 3 -> p_file s = Some f -> 0 <= p_row s -> line s + n <= 67 ->
  exists s' t p, print_line s = Ok (s', t) /\ (if w then text_of s p else p = []) /\ p_file s' = Some (f ++ p ++ newlines (Z.to_nat n)) /\ line s' = line s + n /\
    p_sense s' = Z.lor (p_sense s) (if w && passes s n 9 then 1 else 0) /\ p_status s' = Z.lor (p_status s) (if w && passes s n 12 then 1 else 0) /\ same_but_print s s' /\
    p_buf s' = (if w then repeat 64 144 else p_buf s).
Proof.
  intros B C N F R L.
  assert (K : Z.land (space_cmd w n) 7 = (if w then 1 else 3) /\ lines_of (space_cmd w n) = n).
  { pose proof (sweep 4 (fun n => (Z.land (space_cmd w n) 7 =? (if w then 1 else 3)) && (lines_of (space_cmd w n) =? n)) ltac:(destruct w; vm_compute; reflexivity) n ltac:(lia)) as S. cbv beta in S. lia. }
  destruct K as [K1 K2]. unfold line in *.
  assert (P : prints (p_cmd s)) by (rewrite C; unfold prints; destruct w; auto).
  pose proof (print_space s f B P F R) as PS. rewrite C, K2 in PS. specialize (PS ltac:(lia) ltac:(lia)). cbv zeta in PS.
  replace (wr (space_cmd w n)) with w in PS by (unfold wr; rewrite K1; destruct w; reflexivity).
  eexists; eexists; exists (text w s). split; [exact PS|].
  destruct (checked_frame w s (Z.to_nat n) (moved w s f (Z.to_nat n))) as (E1 & E2 & E3 & E4 & _).
  split; [unfold text_of, text; destruct w; [apply cut_trimmed|reflexivity]|].
  split; [rewrite E4; reflexivity|]. split; [rewrite E2; unfold moved; cbn; lia|].
  unfold checked. rewrite !crosses_iff. unfold passes, line. rewrite Z2Nat.id by lia.
  replace ((p_row s + 1 <=? hole 9) && (hole 9 <? p_row s + 1 + n)) with ((p_row s <=? 62) && (62 <? p_row s + n)) by (cbn [hole]; lia).
  replace ((p_row s + 1 <=? hole 12) && (hole 12 <? p_row s + 1 + n)) with ((p_row s <=? 60) && (60 <? p_row s + n)) by (cbn [hole]; lia).
  split; [|split; [|split]].
  - destruct (w && ((p_row s <=? 62) && _)), (w && ((p_row s <=? 60) && _)), w; cbn; rewrite ?Z.lor_0_r; reflexivity.
  - destruct (w && ((p_row s <=? 62) && _)), (w && ((p_row s <=? 60) && _)), w; cbn; rewrite ?Z.lor_0_r; reflexivity.
  - destruct (w && ((p_row s <=? 62) && _)), (w && ((p_row s <=? 60) && _)), w; unfold same_but_print; cbn; repeat split.
  - destruct (w && ((p_row s <=? 62) && _)), (w && ((p_row s <=? 60) && _)), w; reflexivity.
Qed.
Lemma skip_all s f w c : ok_buf s -> p_cmd s = skip_cmd w c -> 1 <= c <= 12 -> p_file s = Some f -> 0 <= p_row s ->
  (line s < hole c -> exists s' t p, print_line s = Ok (s', t) /\ (if w then text_of s p else p = []) /\ p_file s' = Some (f ++ p ++ newlines (Z.to_nat (hole c - 1 - line s))) /\
     line s' = hole c - 1 /\ p_sense s' = p_sense s /\ p_status s' = p_status s /\ same_but_print s s' /\ p_buf s' = (if w then repeat 64 144 else p_buf s)) /\
  (~ line s < hole c -> print_line s = UB).
Proof.
  intros B C N F R. destruct (lines_skip w c N) as [K2 K3].
  assert (K1 : wr (skip_cmd w c) = w).
  { pose proof (sweep 13 (fun n => Bool.eqb (wr (skip_cmd w n)) w) ltac:(destruct w; vm_compute; reflexivity) c ltac:(lia)) as S. cbv beta in S. apply Bool.eqb_prop in S. exact S. }
  split; intros H.
  - pose proof (print_skip s f B F R) as PS. rewrite C, K2, K1, K3 in PS. specialize (PS ltac:(lia) H). cbv zeta in PS.
    eexists; eexists; exists (text w s). split; [exact PS|]. split; [unfold text_of, text; destruct w; [apply cut_trimmed|reflexivity]|].
    replace (hole c - line s - 1) with (hole c - 1 - line s) by lia.
    split; [reflexivity|]. split; [unfold moved, line in *; cbn; lia|]. unfold moved. destruct w; cbn; unfold same_but_print; cbn; repeat split.
  - apply (print_no_hole s f B F R); rewrite C, K2; [lia|]. rewrite K3. exact H.
Qed.

Lemma wait_waits a s t bo bi s' t' b' : p_st s = P_WAIT -> p_done s = false -> ~ resetting t -> dev_step a s t bo bi = Ok (s', t', b') -> p_st s' = P_WAIT /\ p_done s' = false /\ p_status s' = p_status s.
Proof.
  intros ST D NR E. unfold dev_step in E. destruct (negb (opro t) && negb (supo t)) eqn:RS.
  { exfalso. apply NR. apply andb_true_iff in RS. rewrite !negb_true_iff in RS. exact RS. }
  rewrite ST in E. cbv zeta in E. brkE E; cbn in *; try congruence; injection E as <- _ _; cbn; auto.
Qed.
Lemma idle_quiet a s t bo bi : p_st s = P_IDLE -> ~ resetting t -> selo t = false -> dev_step a s t bo bi = Ok (s, t, bi).
Proof.
  intros ST NR SO. unfold dev_step. destruct (negb (opro t) && negb (supo t)) eqn:RS.
  { exfalso. apply NR. apply andb_true_iff in RS. rewrite !negb_true_iff in RS. exact RS. }
  rewrite ST. unfold selecting4, tags_eqb, T_sel. cbn [selo]. rewrite SO. reflexivity.
Qed.
Lemma end_stable a s t bo bi s1 t1 b1 t' bo' bi' s2 t2 b2 : is_byte (p_status s) -> p_st s = P_END -> p_sel s = true -> p_sense s = 0 \/ bit (p_status s) SNS_UNITCHK = true ->
  opro t = true -> srvo t = false -> opro t' = true -> dev_step a s t bo bi = Ok (s1, t1, b1) -> p_st s1 = P_END -> srvo t' && negb (stai t') = false -> dev_step a s1 t' bo' bi' = Ok (s2, t2, b2) -> b2 = b1.
Proof.
  intros SB ST SL SU RT RV RT' E1 S1 SV E2. unfold dev_step in E1, E2. rewrite RT in E1. rewrite RT' in E2. cbn [negb andb] in E1, E2. rewrite ST in E1. rewrite S1 in E2. rewrite SL in E1. cbn [negb] in E1. cbv zeta in E1, E2.
  change (srvo (set_selo_opri t)) with (srvo t) in E1. rewrite RV in E1. cbn [andb negb] in E1.
  change (srvo (set_selo_opri t')) with (srvo t') in E2. change (stai (set_selo_opri t')) with (stai t') in E2. rewrite SV in E2.
  assert (LO : forall v, is_byte v -> bit v SNS_UNITCHK = true -> Z.lor v SNS_UNITCHK = v).
  { intros v V H. pose proof (sweep 256 (fun v => negb (bit v SNS_UNITCHK) || (Z.lor v SNS_UNITCHK =? v)) ltac:(vm_compute; reflexivity) v V) as S. cbv beta in S. rewrite H in S. cbn [negb orb] in S. lia. }
  assert (CT : forall v, Z.lor (Z.lor v SNS_CTLEND) SNS_CTLEND = Z.lor v SNS_CTLEND) by (intros v; rewrite <- Z.lor_assoc; reflexivity).
  assert (CU : forall v, is_byte v -> bit v SNS_UNITCHK = true -> Z.lor (Z.lor v SNS_CTLEND) SNS_UNITCHK = Z.lor v SNS_CTLEND).
  { intros v V H. rewrite <- Z.lor_assoc, (Z.lor_comm SNS_CTLEND), Z.lor_assoc, LO; auto. }
  destruct (p_bsy s) eqn:BS.
  - destruct (with_parity (p_status (or_status SNS_CTLEND s))) as [w| |] eqn:W; try discriminate. cbn [bind] in E1. cbn [p_status or_status set_status] in W.
    assert (Q : p_bsy s1 = true /\ Z.lor (p_status s1) SNS_CTLEND = Z.lor (p_status s) SNS_CTLEND /\ b1 = w /\ p_sel s1 = true).
    { change (p_sense (or_status SNS_CTLEND s)) with (p_sense s) in E1. destruct SU as [SU|SU]; [rewrite SU in E1; cbn [Z.eqb negb] in E1|]; brkE E1; try (injection E1 as <- _ <-; cbn; rewrite ?CT, ?SL; repeat split; auto; fail);
        try (injection E1 as <- _ <-; discriminate).
      injection E1 as <- _ <-. cbn. rewrite (CU _ SB SU), CT. repeat split; auto. }
    destruct Q as (Q1 & Q2 & -> & Q3). rewrite Q3, Q1 in E2. cbn [negb] in E2. change (p_status (or_status SNS_CTLEND s1)) with (Z.lor (p_status s1) SNS_CTLEND) in E2. rewrite Q2, W in E2. cbn [bind] in E2.
    brkE E2; injection E2 as _ _ <-; reflexivity.
  - destruct (with_parity (p_status s)) as [w| |] eqn:W; try discriminate. cbn [bind] in E1.
    assert (Q : p_bsy s1 = false /\ p_status s1 = p_status s /\ b1 = w /\ p_sel s1 = true).
    { destruct SU as [SU|SU]; [rewrite SU in E1; cbn [Z.eqb negb] in E1|]; brkE E1; try (injection E1 as <- _ <-; cbn; rewrite ?SL; repeat split; auto; fail); try (injection E1 as <- _ <-; discriminate). }
    destruct Q as (Q1 & Q2 & -> & Q3). rewrite Q3, Q1, Q2, W in E2. cbn [negb bind] in E2. brkE E2; injection E2 as _ _ <-; reflexivity.
Qed.
Lemma restore_ub s : okd s -> p_ready s = false -> do_key KRestore s = UB.
Proof.
  intros O R. cbn [do_key]. rewrite R. cbn [negb]. assert (O2 : okd (set_cmd 139 s)) by (destruct O; constructor; cbn; auto; apply byte_const; reflexivity).
  destruct (print_undefined _ (okd_buf _ O2) (or_intror eq_refl : prints (p_cmd (set_cmd 139 s))) (ok_row _ O2)) as [U D].
  rewrite U; [reflexivity|]. unfold undefined_print. right; right. unfold line. cbn. split; [lia|]. pose proof (ok_row _ O). lia.
Qed.
(** A command with the low bits 0 other than 0 does not end. *)
Definition stuck (s : dev) : Prop := p_st s = P_OPR /\ p_rdyd s = false /\ p_status s = 0 /\ Z.land (p_cmd s) 7 = 0.
Lemma stuck_step a s t bo bi : stuck s -> ~ resetting t -> exists s' t' b', dev_step a s t bo bi = Ok (s', t', b') /\ stuck s' /\ (stai t = false -> stai t' = true -> b' = SNS_BSY) /\ srvi t' = srvi t.
Proof.
  intros (ST & RD & SS & CM) NR. unfold dev_step. destruct (negb (opro t) && negb (supo t)) eqn:RS.
  { exfalso. apply NR. apply andb_true_iff in RS. rewrite !negb_true_iff in RS. exact RS. }
  rewrite ST. cbv zeta. rewrite RD. replace (p_cmd s =? 4) with false by (destruct (Z.eqb_spec (p_cmd s) 4) as [Q|Q]; [rewrite Q in CM; discriminate|reflexivity]). rewrite CM. cbn [Z.eqb bind].
  rewrite SS. change (bit 0 SNS_CHNEND) with false. cbv iota. rewrite SS. change (bit 0 SNS_DEVEND) with false. cbv iota.
  brk; do 3 eexists; (split; [reflexivity|]); (split; [unfold stuck; cbn; auto|]); cbn; split; try reflexivity; try congruence; auto.
Qed.
