(** More about the console. *)
From Verif Require Import K1052.Spec K1052.Proofs K1052.Proofs2 K1052.Proofs3.

Lemma receive_nonempty l s x : l <> [] -> match Some l with None => x | Some [] => set_cons false x | Some l' => receive l' s end = receive l s.
Proof. destruct l; [congruence|reflexivity]. Qed.
Lemma bytes_nonempty us : us <> [] -> concat (map bytes_of us) <> [].
Proof. destruct us as [|[] ?]; cbn; congruence. Qed.
(** Keys arriving. *)
Lemma net_types us s : us <> [] -> Forall unit_ok us -> queue_ok s -> c_cons s = true -> c_tn s = T_NORM ->
  let s' := net false (Some (concat (map bytes_of us))) s in
  queue_ok s' /\ queue s' = firstn 256 (queue s ++ (if c_iflg s then typed us else [])) /\ c_iflg s' = c_iflg s /\ c_cons s' = true /\
  ((length (queue s ++ (if c_iflg s then typed us else [])) < 256)%nat -> c_tn s' = T_NORM /\ bits_in s s' (concat (map chars_of us))).
Proof.
  intros NE U Q C T. cbv zeta. unfold net. rewrite C. rewrite (receive_nonempty _ _ _ (bytes_nonempty us NE)).
  destruct (flush_keep s) as (K & _ & _ & _ & FC & FI & FT & FA & FE & FX). pose proof (sameq_ok _ _ K Q) as Q1. rewrite T in FT.
  destruct (units_q us (flush s) U Q1 FT) as (Q2 & E2 & F2 & B2). rewrite (sameq_q _ _ K), FI in E2, B2.
  destruct (receive_q (concat (map bytes_of us)) _ Q1) as (_ & _ & C2 & _).
  split; [exact Q2|]. split; [exact E2|]. split; [congruence|]. split; [congruence|]. intros L. destruct (B2 L) as [T2 B]. split; [exact T2|]. unfold bits_in in *. rewrite FA, FE, FX, FI in B. exact B.
Qed.
Lemma session_fifo l : forall s s' o, queue_ok s -> c_cons s = true -> c_iflg s = true -> c_tn s = T_NORM -> Forall kact_ok l -> Forall (fun c => 0 <= c < 128) (queue s) ->
  (length (queue s ++ all_typed l) < 256)%nat -> session l s = Ok (s', o) -> map code (queue s ++ all_typed l) = o ++ map code (queue s').
Proof.
  induction l as [|x l IH]; intros s s' o Q C F T K QA L E; cbn [session] in E.
  - injection E as <- <-. cbn. rewrite app_nil_r. reflexivity.
  - inversion K as [|? ? KX K']; subst. destruct x as [us|].
    + destruct KX as (NE & U & TA). destruct (net_types us s NE U Q C T) as (Q1 & E1 & F1 & C1 & B1). rewrite F in E1, F1, B1. unfold all_typed in L. cbn [map concat] in L. fold (all_typed l) in L.
      rewrite app_assoc, app_length in L. destruct (B1 ltac:(lia)) as [T1 _]. rewrite firstn_all2 in E1 by lia.
      unfold all_typed. cbn [map concat]. fold (all_typed l). rewrite app_assoc, <- E1. apply (IH _ _ _ Q1 C1 F1 T1 K').
      * rewrite E1. apply Forall_app. split; assumption.
      * rewrite E1, app_length. exact L.
      * exact E.
    + unfold all_typed in *. cbn [map concat] in *. fold (all_typed l) in *. rewrite app_nil_l in *.
      destruct (queue s) as [|c q] eqn:QS.
      * rewrite in_none in E by (right; apply queue_nil; assumption). cbn [bind] in E. destruct (session l s) as [[s2 o2]| |] eqn:E2; try discriminate. cbn [bind] in E. injection E as <- <-.
        rewrite <- QS. apply (IH s); rewrite ?QS; assumption.
      * destruct (in_q s Q F c q QS) as (P1 & _). destruct (in_char s) as [[s1 x]| |] eqn:E1; try discriminate. cbn [bind] in E.
        destruct (P1 _ _ eq_refl) as (w & -> & W & R & Q1 & QO & S1). destruct (session l s1) as [[s2 o2]| |] eqn:E2; try discriminate. cbn [bind] in E. injection E as <- <-.
        assert (LW : Z.land w 255 = code c). { destruct (with_parity_ok _ (code_byte c R)) as (y & E & _ & LL & _). rewrite W in E. injection E as <-. exact LL. }
        rewrite LW. cbn [app map]. f_equal. rewrite <- Q1. apply Forall_inv_tail in QA. apply (IH s1); try assumption; rewrite ?Q1; try assumption; try (rewrite S1; assumption). cbn [app length] in L. lia.
Qed.
Lemma session_defined l : forall s, queue_ok s -> c_cons s = true -> c_iflg s = true -> c_tn s = T_NORM -> Forall kact_ok l -> Forall (fun c => 0 <= c < 128) (queue s) ->
  (length (queue s ++ all_typed l) < 256)%nat -> exists s' o, session l s = Ok (s', o).
Proof.
  induction l as [|x l IH]; intros s Q C F T K QA L; cbn [session].
  - eexists; eexists; reflexivity.
  - inversion K as [|? ? KX K']; subst. destruct x as [us|].
    + destruct KX as (NE & U & TA). destruct (net_types us s NE U Q C T) as (Q1 & E1 & F1 & C1 & B1). rewrite F in E1, F1, B1. unfold all_typed in L. cbn [map concat] in L. fold (all_typed l) in L.
      rewrite app_assoc, app_length in L. destruct (B1 ltac:(lia)) as [T1 _]. rewrite firstn_all2 in E1 by lia. apply IH; try assumption.
      * rewrite E1. apply Forall_app. split; assumption.
      * rewrite E1, app_length. exact L.
    + unfold all_typed in *. cbn [map concat] in *. fold (all_typed l) in *. rewrite app_nil_l in *.
      destruct (queue s) as [|c q] eqn:QS.
      * rewrite in_none by (right; apply queue_nil; assumption). cbn [bind]. destruct (IH s) as (s' & o & E); rewrite ?QS; try assumption. rewrite E. cbn [bind]. eexists; eexists; reflexivity.
      * destruct (in_q s Q F c q QS) as (P1 & P2 & _). destruct (P2 (Forall_inv QA)) as [[s1 x] E1]. apply Forall_inv_tail in QA. rewrite E1. cbn [bind].
        destruct (P1 _ _ E1) as (w & -> & W & R & Q1 & QO & S1). destruct (IH s1) as (s' & o & E); try (rewrite S1; assumption); rewrite ?Q1; try assumption; [cbn [app length] in L; lia|]. rewrite E. cbn [bind]. eexists; eexists; reflexivity.
Qed.

(** An idle console. *)
Lemma idle_quiet a s t bo bi s' t' bi' : c_st s = IDLE -> ~ resetting t -> ~ addressing a t bo -> ~ polling s t -> dev_step a s t bo bi = Ok (s', t', bi') ->
  s' = s /\ ~ drives t bi t' bi'.
Proof.
  intros ST NR NA NP E. unfold dev_step in E. rewrite ST in E. destruct t as [t1 t2 t3 t4 t5 t6 t7 t8 t9 t10 t11 t12].
  unfold resetting, addressing, polling, drives in *. cbn -[Z.eqb Z.land with_parity bad_parity] in *.
  assert (ND : forall x y, (forall r, (mkT t1 t2 t3 t4 t5 t6 t7 t8 t9 t10 t11 r, bi) <> (x, y)) -> True) by trivial.
  assert (D : s' = s -> bi' = bi -> opri t' = t8 -> adri t' = t9 -> stai t' = t10 -> srvi t' = t11 -> selo t' = t1 ->
    s' = s /\ ~ (t8 = false /\ opri t' = true \/ t9 = false /\ adri t' = true \/ t10 = false /\ stai t' = true \/ t11 = false /\ srvi t' = true \/ bi' <> bi \/ selo t' <> t1)).
  { intros -> -> -> -> -> -> ->. split; [reflexivity|]. intuition congruence. }
  destruct t7; cbn [negb andb] in E.
  - destruct t8.
    + injection E as <- <- <-. apply D; try reflexivity; destruct (c_req s || c_stk s); reflexivity.
    + assert (E0 : (if t1 then if t2 then if Z.land bo 255 =? a then True else False else if negb t5 && (c_req s || c_stk s) then True else False else False) -> False).
      { destruct t1; [|tauto]. destruct t2.
        - destruct (Z.land bo 255 =? a) eqn:B; [|tauto]. intros _. apply NA. repeat split. apply Z.eqb_eq. exact B.
        - destruct t5; cbn [negb andb]; [tauto|]. destruct (c_req s || c_stk s) eqn:B; [|tauto]. intros _. apply NP. repeat split. apply orb_true_iff. exact B. }
      destruct t1; cbn in E; [destruct t2; cbn in E; [destruct (Z.land bo 255 =? a); [tauto|]|destruct (c_req s || c_stk s) eqn:B; cbn in E; [destruct t5; cbn in E, E0; [|tauto]|rewrite ?andb_false_r in E]]|];
        destruct (c_req s || c_stk s); cbn in E; injection E as <- <- <-; apply D; reflexivity.
  - destruct t5; cbn [negb andb] in E; [|exfalso; apply NR; split; reflexivity]. injection E as <- <- <-. apply D; reflexivity.
Qed.

(** Commands. *)
Lemma cmd_status c s : is_byte c -> c_bsy s = false ->
  let s' := device_cmd c s in c_st s' = c_st s /\ c_attn s' = c_attn s /\ c_status s' = first_status c /\ (first_status c = 14 -> c_sense s' = 128) /\
  (c_bsy s' = (known c || (c =? NOP))) /\ (first_status c <> 14 -> c_cmd s' = c) /\ (c = WRITE \/ c = WRITE_ACR \/ c = READ \/ c = NOP -> c_sense s' = 0).
Proof.
  intros B BS. cbv zeta. unfold device_cmd. rewrite BS. cbv zeta. rewrite !(land_id c) by exact B.
  set (s1 := begin_cmd c s). assert (S1 : c_st s1 = c_st s /\ c_attn s1 = c_attn s /\ c_status s1 = 0 /\ c_bsy s1 = false /\ c_cmd s1 = c) by (repeat split; exact BS). clearbody s1. destruct S1 as (A1 & A2 & A3 & A4 & A5).
  assert (FA : forall s x, bit x 2 = false -> c_attn (fst (func s x)) = c_attn s).
  { intros s0 x X. unfold func. destruct (c_cons s0); [|reflexivity]. rewrite X. destruct (bit x 1), (bit x 128), (Z.land x 80 =? 80), (bit x 4); reflexivity. }
  pose proof (func_fields (set_sense 0 s1) 129) as (F0 & F1 & F2 & F3 & _). pose proof (func_fields (set_sense 0 s1) 81) as (G0 & G1 & G2 & G3 & _).
  pose proof (FA (set_sense 0 s1) 129 eq_refl) as F5. pose proof (FA (set_sense 0 s1) 81 eq_refl) as G5.
  assert (N0 : negb (Z.land c 240 =? 0) = true -> first_status c = 14 /\ known c = false /\ (c =? NOP) = false).
  { intros H. pose proof (sweep 256 (fun c => if negb (Z.land c 240 =? 0) then (first_status c =? 14) && negb (known c) && negb (c =? NOP) else true) ltac:(vm_compute; reflexivity) c B) as S. cbn beta in S. rewrite H in S.
    destruct (known c), (c =? NOP); rewrite ?andb_false_r in S; try discriminate; cbn in S; repeat split; lia. }
  assert (N1 : negb (Z.land c 240 =? 0) = false -> Z.land c 15 = c).
  { intros H. pose proof (sweep 256 (fun c => if negb (Z.land c 240 =? 0) then true else Z.land c 15 =? c) ltac:(vm_compute; reflexivity) c B) as S. cbn beta in S. rewrite H in S. lia. }
  unfold WRITE, WRITE_ACR, READ, NOP in *.
  assert (J : forall x, first_status c = 14 -> known c = false -> (c =? 3) = false -> c_st x = c_st s -> c_attn x = c_attn s -> c_st (reject x) = c_st s /\ c_attn (reject x) = c_attn s /\ c_status (reject x) = first_status c /\ (first_status c = 14 -> c_sense (reject x) = 128) /\
     c_bsy (reject x) = (known c || (c =? 3)) /\ (first_status c <> 14 -> c_cmd (reject x) = c) /\ (c = 1 \/ c = 9 \/ c = 10 \/ c = 3 -> c_sense (reject x) = 0)).
  { intros x X1 X2 X3 X4 X5. rewrite X1, X2, X3. repeat (split; [first [exact X4|exact X5|reflexivity|congruence|tauto]|]).
    intros H. unfold known, WRITE, WRITE_ACR, READ in X2. assert ((c =? 1) = false /\ (c =? 9) = false /\ (c =? 10) = false) by (destruct (c =? 1), (c =? 9), (c =? 10); cbn in X2; try discriminate; auto). lia. }
  destruct (negb (Z.land c 240 =? 0)) eqn:H.
  { destruct (N0 eq_refl) as (X1 & X2 & X3). apply J; assumption. }
  rewrite (N1 eq_refl). clear N0 N1.
  destruct (c =? 0) eqn:C0. { apply Z.eqb_eq in C0. rewrite A1, A2, A3, A4, A5. clear A5 J. subst c. repeat split; try reflexivity; try discriminate; lia. }
  destruct ((c =? 1) || (c =? 9)) eqn:C1.
  { assert (C2 : c = 1 \/ c = 9) by lia. cbn. rewrite F0, F1, F2, F3, F5. cbn. rewrite A1, A2, A3, A5. clear A5 J F1 G1. destruct C2; subst c; repeat split; try reflexivity; discriminate. }
  destruct (c =? 10) eqn:C2.
  { apply Z.eqb_eq in C2. cbn. rewrite G0, G1, G2, G3, G5. cbn. rewrite A1, A2, A3, A5. clear A5 J F1 G1. subst c; repeat split; try reflexivity; discriminate. }
  destruct (c =? 3) eqn:C3.
  { apply Z.eqb_eq in C3. cbn. rewrite A1, A2, A5. clear A5 J F1 G1. subst c; repeat split; try reflexivity; discriminate. }
  destruct (c =? 4) eqn:C4.
  { apply Z.eqb_eq in C4. cbn. rewrite A1, A2, A3, A5. clear A5 J F1 G1. subst c; repeat split; try reflexivity; try discriminate. lia. }
  assert (X : known c = false) by (unfold known, WRITE, WRITE_ACR, READ, SENSE; rewrite C2, C4; destruct (c =? 1), (c =? 9); cbn in *; congruence).
  apply J; try assumption; [|reflexivity]. unfold first_status, NOP. rewrite C0, X, C3. reflexivity.
Qed.
Lemma first_byte c : is_byte (first_status c). Proof. unfold first_status. destruct (_ || _); [|destruct (_ =? _)]; apply byte_const; reflexivity. Qed.
Lemma ask_any a pa s c pc bi : is_byte a -> with_parity a = Ok pa -> idle s -> is_byte c -> with_parity c = Ok pc ->
  exists s' t' bi', talk a (ask pa pc) s free bi = Ok (s', t', bi', [first_status c], []) /\ (first_status c = 14 -> c_sense s' = 128) /\ c_bsy s' = (known c || (c =? NOP)).
Proof.
  intros A PA (I1 & I2 & I3 & I4 & I5 & I6 & I7 & I8 & I9) B PC. pose proof (pa_low a pa A PA) as LA. pose proof (pa_good a pa A PA) as GA.
  pose proof (parity_good c pc B PC) as GC. destruct (w_byte c B) as (y & E & LC). rewrite PC in E. injection E as <-.
  destruct (w_byte _ (first_byte c)) as (w & EW & LW).
  set (s3 := set_st STATUS (set_req false (set_st COMMAND (set_sel true (set_st INIT_SEL s))))).
  destruct (cmd_status c s3 B ltac:(exact I3)) as (D1 & D2 & D3 & D4 & D5 & _).
  eexists; eexists; eexists. split; [|split].
  - unfold ask, free. eapply talk_cyc; [apply (r_select a pa); first [assumption|reflexivity]| |reflexivity|reflexivity].
    eapply talk_cyc; [apply (r_init a pa); first [assumption|reflexivity]| |reflexivity|reflexivity].
    eapply talk_cyc; [apply (r_command a pa); first [assumption|reflexivity]| |reflexivity|reflexivity].
    fold s3. rewrite LC. eapply talk_cyc; [eapply r_status; [exact D1|reflexivity|rewrite D2; exact I6|rewrite D3; exact EW]|apply talk_nil| |reflexivity].
    cbn. rewrite LW. reflexivity.
  - exact D4.
  - exact D5.
Qed.

(** Sense does not end. *)
Definition stuck (s : dev) : Prop :=
  c_st s = WAIT_DEVEND /\ c_done s = false /\ c_bsy s = true /\ c_cmd s = 4 /\ c_iflg s = false /\ c_ilen s = 0 /\ c_home s = false /\ c_eob s = false /\ c_cancel s = false.
Lemma push_stuck c s : stuck s -> stuck (push_char c s).
Proof. intros S. pose proof S as (S1 & S2 & S3 & S4 & S5 & S6 & S7 & S8 & S9). unfold push_char. rewrite S5. destruct (c =? 12), (c =? 27); exact S. Qed.
Lemma telnet_stuck c s : stuck s -> stuck (telnet c s).
Proof. intros S. pose proof (push_stuck c s S) as P. unfold telnet. destruct (c_tn s); brk; first [exact S|exact P]. Qed.
Lemma receive_stuck l : forall s, stuck s -> stuck (receive l s).
Proof. induction l as [|c l IH]; intros s S; [exact S|]. cbn [receive]. destruct (_ <? _); [apply IH, telnet_stuck, S|exact S]. Qed.
Lemma flush_stuck s : stuck s -> stuck (flush s).
Proof. intros S. unfold flush, send_out. destruct (c_oflg s), (c_ocr s) eqn:E, (c_cons s) eqn:F; cbn; rewrite ?E; cbn; rewrite ?F; exact S. Qed.
Lemma net_stuck conn inp s : stuck s -> stuck (net conn inp s).
Proof.
  intros S. unfold net. assert (S1 : stuck (if conn then accept s else s)). { destruct conn; [|exact S]. unfold accept. destruct (c_cons s); [exact S|]. destruct S as (S1 & S2 & S3 & S4 & S5 & S6 & S7 & S8 & S9). repeat split; assumption. }
  apply flush_stuck in S1. destruct (c_cons s); [|exact S1]. destruct inp as [[|b l]|]; [exact S1|apply receive_stuck; exact S1|exact S1].
Qed.
Lemma stuck_step a s x : stuck s -> plain_act x -> exists s', astep a s x = Ok s' /\ stuck s'.
Proof.
  intros S P. pose proof S as (S1 & S2 & S3 & S4 & S5 & S6 & S7 & S8 & S9). destruct x as [t bo bi| | |conn inp|tin| |ch]; cbn [astep plain_act] in *; try contradiction.
  - unfold dev_step. destruct (negb (opro t) && negb (supo t)) eqn:R. { exfalso. apply P. apply andb_true_iff in R. destruct R as [R1 R2]. apply negb_true_iff in R1, R2. split; assumption. }
    rewrite S1, S2. eexists. split; [reflexivity|exact S].
  - destruct (c_poll s); [|eexists; split; [reflexivity|exact S]]. rewrite poll_eq, S4, S6, S7. cbn [andb orb Z.ltb Z.compare]. rewrite !andb_false_r. eexists. split; [reflexivity|].
    unfold poll_tail. rewrite S6, S8, S9. cbn [Z.ltb Z.compare negb orb andb]. rewrite !andb_false_r. destruct (c_cons s && c_attn s); exact S.
  - destruct (c_pend s) as [|n]; [eexists; split; [reflexivity|exact S]|]. unfold send_cb. pose proof (func0 (set_pend n s)) as E. destruct (func (set_pend n s) 0) as [s1 out]. cbn [fst] in E. subst s1.
    cbn [c_cmd set_pend]. rewrite S4. change (bit 4 1) with false. cbn [andb]. eexists. split; [reflexivity|exact S].
  - eexists. split; [reflexivity|]. apply net_stuck, S.
Qed.
Lemma stuck_run a l : Forall plain_act l -> forall s, stuck s -> exists s', run a s l = Ok s' /\ stuck s'.
Proof.
  induction l as [|x l IH]; intros F s S; [exists s; split; [reflexivity|exact S]|]. inversion F; subst. destruct (stuck_step a s x S ltac:(assumption)) as (s1 & E1 & S1).
  cbn [run]. rewrite E1. cbn [bind]. apply IH; assumption.
Qed.
Lemma sense_stuck a pa s pc bi : is_byte a -> with_parity a = Ok pa -> idle s -> quiet s -> c_iflg s = false -> with_parity 4 = Ok pc -> is_byte (c_sense s) ->
  exists s' t' bi', talk a (start_io pa pc ++ [Cyc held 0]) s free bi = Ok (s', t', bi', [0], []) /\ stuck s'.
Proof.
  intros A PA (I1 & I2 & I3 & I4 & I5 & I6 & I7 & I8 & I9) (Q1 & Q2 & Q3 & Q4 & Q5 & Q6) F PC SB. pose proof (pa_low a pa A PA) as LA. pose proof (pa_good a pa A PA) as GA.
  assert (B : is_byte 4) by (apply byte_const; reflexivity).
  pose proof (parity_good 4 pc B PC) as GC. destruct (w_byte 4 B) as (y & E & LC). rewrite PC in E. injection E as <-.
  destruct (w_byte 0 ltac:(apply byte_const; reflexivity)) as (w & EW & LW).
  destruct s as [c_st0 c_sel0 c_req0 c_stk0 c_sense0 c_cmd0 c_status0 c_bsy0 c_data0 c_rdyd0 c_end0 c_done0 c_cons0 c_keys0 c_obuf0 c_oflg0 c_ocr0 c_iflg0 c_iptr0 c_optr0 c_ilen0 c_home0 c_attn0 c_cancel0 c_eob0 c_tn0 c_sent0 c_poll0 c_pend0].
  cbn [c_st c_sel c_bsy c_stk c_status c_attn c_cons c_oflg c_ocr c_cmd c_home c_ilen c_cancel c_eob c_req c_iflg] in *. subst.
  eexists; eexists; eexists. split.
  - unfold start_io, ask, free. cbn [app]. st (r_select (Z.land pa 255) pa). st (r_init (Z.land pa 255) pa). st (r_command (Z.land pa 255) pa). rewrite LC.
    match goal with |- context[device_cmd 4 ?s] => replace (device_cmd 4 s) with (mkC STATUS true false false c_sense0 4 0 true c_sense0 true true false true c_keys0 c_obuf0 false false false c_iptr0 c_optr0 0 false false false false c_tn0 c_sent0 c_poll0 c_pend0) by reflexivity end.
    st r_status. st r_accept_end.
    eapply talk_cyc; [reflexivity|apply talk_nil| |]. all: ends ltac:(rewrite ?LW).
  - repeat split.
Qed.

(** A halted read. *)
Definition hung (s : dev) : Prop :=
  (c_st s = IDLE \/ c_st s = BUSY) /\ c_bsy s = true /\ c_end s = true /\ c_req s = false /\ c_stk s = false /\ c_cmd s = 10 /\ c_ilen s = 0 /\ c_home s = false /\ c_eob s = false /\ c_cancel s = false /\ c_attn s = false.
Lemma hung_step a s x : is_byte a -> hung s -> untouched_act x -> exists s', astep a s x = Ok s' /\ hung s'.
Proof.
  intros A S P. pose proof S as (S1 & S2 & S3 & S4 & S5 & S6 & S7 & S8 & S9 & S10 & S11). destruct x as [t bo bi| | |conn inp|tin| |ch]; cbn [astep untouched_act] in *; try contradiction.
  - unfold dev_step. destruct (negb (opro t) && negb (supo t)) eqn:R. { exfalso. apply P. apply andb_true_iff in R. destruct R as [R1 R2]. apply negb_true_iff in R1, R2. split; assumption. }
    destruct (bad_parity_ok bo) as [bad BP]. assert (EB : with_parity SNS_BSY = Ok 16) by reflexivity.
    destruct S1 as [S1|S1]; rewrite S1; rewrite ?S4, ?S5; cbn [orb]; rewrite ?andb_false_r, ?BP, ?EB; cbn [bind]; cbv zeta.
    + assert (SB : c_bsy (if bad then or_sense S_BUSCHK s else s) = true) by (destruct bad; exact S2). rewrite SB.
      assert (HB : hung (set_st BUSY (if bad then or_sense S_BUSCHK s else s))) by (destruct bad; (split; [right; reflexivity|repeat split; assumption])). revert HB. generalize (set_st BUSY (if bad then or_sense S_BUSCHK s else s)). intros s' HB.
      brk; (eexists; split; [reflexivity|]); first [exact S|exact HB].
    + cbn [c_end set_st set_sel]. rewrite S3. cbn [negb]. rewrite andb_false_r. brk; (eexists; split; [reflexivity|]); first [exact S | repeat split; try assumption; left; reflexivity].
  - destruct (c_poll s); [|eexists; split; [reflexivity|exact S]]. rewrite poll_eq, S6, S7, S8. cbn [andb orb Z.ltb Z.compare]. rewrite !andb_false_r. eexists. split; [reflexivity|].
    unfold poll_tail. rewrite S7, S9, S10, S11. cbn [Z.ltb Z.compare negb orb andb]. rewrite !andb_false_r. exact S.
  - destruct (c_pend s) as [|n]; [eexists; split; [reflexivity|exact S]|]. unfold send_cb. pose proof (func0 (set_pend n s)) as E. destruct (func (set_pend n s) 0) as [s1 out]. cbn [fst] in E. subst s1.
    cbn [c_cmd set_pend]. rewrite S6. change (bit 10 1) with false. cbn [andb]. eexists. split; [reflexivity|exact S].
  - subst inp. eexists. split; [reflexivity|]. unfold net.
    assert (S' : hung (if conn then accept s else s)). { destruct conn; [|exact S]. unfold accept. destruct (c_cons s); [exact S|]. repeat split; assumption. }
    assert (FL : forall s, hung s -> hung (flush s)). { intros s0 H. unfold flush, send_out. destruct (c_oflg s0), (c_ocr s0) eqn:E, (c_cons s0) eqn:F; cbn; rewrite ?E; cbn; rewrite ?F; exact H. }
    apply FL in S'. destruct (c_cons s); exact S'.
Qed.
Lemma hung_run a l : is_byte a -> Forall untouched_act l -> forall s, hung s -> exists s', run a s l = Ok s' /\ hung s'.
Proof.
  intros A. induction l as [|x l IH]; intros F s S; [exists s; split; [reflexivity|exact S]|]. inversion F; subst. destruct (hung_step a s x A S ltac:(assumption)) as (s1 & E1 & S1).
  cbn [run]. rewrite E1. cbn [bind]. apply IH; assumption.
Qed.

(** Attention. *)
Lemma attention a pa s bi : is_byte a -> with_parity a = Ok pa -> idle s -> quiet s -> c_poll s = true -> c_tn s = T_NORM ->
  exists s' bi', talk a take_attention s free bi = Ok (s', free, bi', [128], []) /\ idle s' /\ quiet s'.
Proof.
  intros A PA (I1 & I2 & I3 & I4 & I5 & I6 & I7 & I8 & I9) (Q1 & Q2 & Q3 & Q4 & Q5 & Q6) PO TN.
  assert (G0 : bad_parity 256 = Ok false) by reflexivity. destruct (w_byte 128 ltac:(apply byte_const; reflexivity)) as (w & EW & LW).
  destruct s as [c_st0 c_sel0 c_req0 c_stk0 c_sense0 c_cmd0 c_status0 c_bsy0 c_data0 c_rdyd0 c_end0 c_done0 c_cons0 c_keys0 c_obuf0 c_oflg0 c_ocr0 c_iflg0 c_iptr0 c_optr0 c_ilen0 c_home0 c_attn0 c_cancel0 c_eob0 c_tn0 c_sent0 c_poll0 c_pend0].
  cbn [c_st c_sel c_bsy c_stk c_status c_attn c_cons c_oflg c_ocr c_cmd c_home c_ilen c_cancel c_eob c_req c_iflg c_poll c_tn] in *. subst.
  eexists; eexists. split; [|split].
  - unfold take_attention, free. eapply talk_net; [reflexivity|]. nrm. eapply talk_poll; [cbn [astep c_poll]; rewrite poll_eq; reflexivity|].
    match goal with |- talk _ _ ?s _ _ = _ => replace s with (mkC IDLE false true false c_sense0 0 0 false c_data0 c_rdyd0 c_end0 c_done0 true c_keys0 c_obuf0 false false c_iflg0 c_iptr0 c_optr0 0 false true false false T_NORM c_sent0 true c_pend0) by reflexivity end.
    st r_ask. st (r_poll a pa). st (r_init a pa). st (r_command a pa). change (Z.land 256 255) with 0.
    match goal with |- context[device_cmd 0 ?s] => replace (device_cmd 0 s) with (mkC STATUS true false false c_sense0 0 0 false c_data0 false false false true c_keys0 c_obuf0 false false c_iflg0 c_iptr0 c_optr0 0 false true false false T_NORM c_sent0 true c_pend0) by reflexivity end.
    eapply talk_cyc; [eapply r_status_attn; [reflexivity|reflexivity|reflexivity|exact EW]| | |].
    { match goal with |- talk _ _ (set_st STATUS_ACCEPT ?s) _ _ = _ => replace s with (mkC STATUS true false false c_sense0 0 128 false c_data0 false false false true c_keys0 c_obuf0 false false c_iflg0 c_iptr0 c_optr0 0 false false false false T_NORM c_sent0 true c_pend0) by reflexivity end.
      nrm. st r_accept_done. st r_wait. apply talk_nil. all: ends ltac:(rewrite ?LW). }
    all: ends ltac:(rewrite ?LW).
  - repeat split.
  - repeat split.
Qed.
