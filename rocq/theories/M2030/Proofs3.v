(** The 2030: the arithmetic unit inside a microinstruction. *)
From Verif Require Import M2030.Model M2030.Spec M2030.Proofs M2030.Proofs2.

Lemma alu_step_inv sw w s s' : alu_step sw w s = Ok s' ->
  alu (CV w) (CC w) (a_in (CF w) s!Abus) (b_mask (CG w) s!Bbus) s!S_REG s!even_parity s!Alu_out = Ok (s'!Alu_out, s'!carries).
Proof.
  unfold alu_step. set (s1 := if (CF w =? 4) && negb (PROC_SW sw =? 0) then s <[cf_stop := 1]> else s). cbv zeta.
  assert (F : frame [cf_stop] s s1) by (unfold s1; frs).
  rewrite !get_set. cbn [reg_beq].
  rewrite (F Abus eq_refl), (F Bbus eq_refl), (F S_REG eq_refl), (F even_parity eq_refl), (F Alu_out eq_refl).
  destruct (alu _ _ _ _ _ _ _) as [[z k]| |]; cbn [bind]; try discriminate. intros H. injection H as <-. reflexivity.
Qed.

Lemma stops_stat sw w s : (stops sw w s)!STAT_REG =
  Z.lor (Z.lor (f (bit s!carries 128) 4) (f (bit s!carries 64) 2)) (f (negb (bit s!Alu_out 255)) 8).
Proof.
  unfold stops. cbv zeta. rewrite get_set. cbn [reg_beq].
  rewrite (hard_stops_frame sw w s carries eq_refl), (hard_stops_frame sw w s Alu_out eq_refl). reflexivity.
Qed.
Definition L_k := [MASK; XX_REG; FT; mpx_supr_out_lch; MPX_TAGS; MPX_TI; mpx_start_sel; O_REG; mpx_cmd_start; ch_sel; sel_ros_req] ++
  flat_map (fun c => [GC c; GD c; sel_chain_req c; GK c; GF c; sel_cnt_rdy_zero c; GG c; GU c; GV c; GR c; sel_chan_busy c; sel_intrp_lch c; sel_gr_full c;
    sel_cnt_rdy_not_zero c; sel_status_stop_cond c; sel_diag_mode c; sel_diag_tag_ctrl c; sel_chain_det c; SEL_TAGS c; sel_poll_ctrl c; GE c; sel_halt_io c;
    sel_bus_out_ctrl c; GO c]) [false; true].
Lemma k_frames w s : frame L_k s (k_fb w s) /\ frame L_k s (k_fa w s) /\ frame L_k s (k_gh w s) /\ frame L_k s (k_gb w s) /\ frame L_k s (k_ga w s).
Proof. unfold k_fb, k_fa, k_gh, k_gb, k_ga, ros_done. repeat split; frs. Qed.
(** The CS field never touches the carry S3. *)
Lemma tb_lor x m k : Z.testbit m k = false -> Z.testbit (Z.lor x m) k = Z.testbit x k.
Proof. intros H. rewrite Z.lor_spec, H, orb_false_r. reflexivity. Qed.
Lemma tb_clr x m k : 0 <= k -> Z.testbit m k = false -> Z.testbit (Z.land x (Z.lnot m)) k = Z.testbit x k.
Proof. intros P H. rewrite Z.land_spec, Z.lnot_spec, H by exact P. apply andb_true_r. Qed.
Lemma cs_s3 w s : ibit (cs_order w s)!S_REG 3 = ibit s!S_REG 3.
Proof.
  unfold ibit. change (7 - 3) with 4. destruct (k_frames w s) as (F1 & F2 & F3 & F4 & F5).
  unfold cs_order. cbv zeta.
  repeat (match goal with |- context [match ?x with _ => _ end] => lazymatch x with bit _ _ => fail | (_ && _)%bool => fail | _ => destruct x end end);
    rewrite ?(F1 S_REG eq_refl), ?(F2 S_REG eq_refl), ?(F3 S_REG eq_refl), ?(F4 S_REG eq_refl), ?(F5 S_REG eq_refl); try reflexivity;
    repeat step_if; gs; cbn [reg_beq];
    rewrite ?tb_lor by reflexivity; rewrite ?tb_clr by (lia || reflexivity); rewrite ?tb_lor by reflexivity; rewrite ?tb_clr by (lia || reflexivity); reflexivity.
Qed.
Lemma checks_s3 sw w s : saves_carry (CC w) -> ibit (checks sw w s)!S_REG 3 = bit s!carries 128.
Proof.
  intros H. rewrite (checks_frame' sw w s S_REG eq_refl). unfold save_carry.
  replace (bit (CC w) 4 && negb (CC w =? 7)) with true by (destruct H as [->|[->| ->]]; reflexivity).
  unfold ibit. change (7 - 3) with 4. destruct (bit s!carries 128) eqn:E; gs; cbn [reg_beq].
  - rewrite Z.lor_spec. apply orb_true_r.
  - rewrite Z.land_spec, Z.lnot_spec by lia. apply andb_false_r.
Qed.

(** What the ALU of a microinstruction was given and what it left. *)
Lemma micro_alu ti sw w s s' (p : parts ti sw w s s') : word_ok w ->
  alu (CV w) (CC w) (gate_a (CF w) s'!Abus) (gate_b (CG w) s'!Bbus) s!S_REG s'!even_parity s!Alu_out = Ok (s'!Alu_out, s'!carries).
Proof.
  intros W. pose proof (alu_step_inv _ _ _ _ (pe_alu p)) as E.
  rewrite a_in_gate, b_mask_gate in E by (apply W).
  pose proof (pre_fr _ _ _ _ _ p) as P. pose proof (alu_fr _ _ _ _ _ p) as A. pose proof (post_fr _ _ _ _ _ p) as Q.
  rewrite (Q Abus eq_refl), (Q Bbus eq_refl), (Q even_parity eq_refl), (Q Alu_out eq_refl), (Q carries eq_refl).
  rewrite (A Abus eq_refl), (A Bbus eq_refl), (A even_parity eq_refl).
  rewrite <- (P S_REG eq_refl), <- (P Alu_out eq_refl). exact E.
Qed.
Lemma micro_stat ti sw w s s' (p : parts ti sw w s s') :
  ibit s'!STAT_REG 5 = bit s'!carries 128 /\ ibit s'!STAT_REG 6 = bit s'!carries 64 /\ ibit s'!STAT_REG 4 = (s'!Alu_out mod 256 =? 0).
Proof.
  assert (E : s'!STAT_REG = Z.lor (Z.lor (f (bit s'!carries 128) 4) (f (bit s'!carries 64) 2)) (f (negb (bit s'!Alu_out 255)) 8)).
  { rewrite (pe_end p). rewrite stops_stat.
    rewrite (stops_frame sw w _ carries eq_refl), (stops_frame sw w _ Alu_out eq_refl). reflexivity. }
  assert (B : bit s'!Alu_out 255 = negb (s'!Alu_out mod 256 =? 0)) by (unfold bit; rewrite land_ones8; reflexivity).
  rewrite E, B, negb_involutive.
  destruct (bit _ 128), (bit _ 64), (_ =? 0); repeat split; reflexivity.
Qed.
Lemma micro_s3 ti sw w s s' (p : parts ti sw w s s') : saves_carry (CC w) -> ibit s'!S_REG 3 = bit s'!carries 128.
Proof.
  intros H. pose proof (post_fr _ _ _ _ _ p carries eq_refl) as C. rewrite C. clear C.
  generalize (p_alu p) (pe_end p). intros u ->.
  rewrite (stops_frame sw w _ S_REG eq_refl), cs_s3, (checks_s3 sw w _ H), (dest_frame w u carries eq_refl). reflexivity.
Qed.

Lemma micro_binary ti sw w s s' : micro ti sw w s = Ok s' -> s!dead_cycle = 0 -> word_ok w -> CV w < 3 -> is_sum (CC w) -> s'!even_parity = 0 ->
  let a := gate_a (CF w) s'!Abus in
  let b := gate_b (CG w) s'!Bbus in
  let b' := if complement (CV w) s!S_REG then 255 - b else b in
  let c := carry_into (CC w) s!S_REG in
  odd9 s'!Alu_out /\ s'!Alu_out mod 256 = (a + b' + c) mod 256 /\
  ibit s'!STAT_REG 5 = (256 <=? a + b' + c) /\ ibit s'!STAT_REG 6 = (128 <=? a mod 128 + b' mod 128 + c) /\
  ibit s'!STAT_REG 4 = ((a + b' + c) mod 256 =? 0) /\
  (saves_carry (CC w) -> ibit s'!S_REG 3 = (256 <=? a + b' + c)).
Proof.
  intros H D W V S E a b b' c. pose proof (micro_parts _ _ _ _ _ H D) as p.
  pose proof (micro_alu _ _ _ _ _ p W) as A. rewrite E in A.
  destruct (micro_stat _ _ _ _ _ p) as (T1 & T2 & T3).
  destruct (alu_bin (CV w) (CC w) a b s!S_REG s!Alu_out) as (z & k & A' & O & M & K1 & K2); try assumption; try apply gate_a_range; try apply gate_b_range.
  { unfold word_ok in W. lia. }
  fold b b' c in A', M, K1, K2. fold a b in A. rewrite A in A'. injection A' as <- <-.
  rewrite T1, T2, T3. split; [exact O|]. split; [exact M|]. split; [exact K1|]. split; [exact K2|]. split; [rewrite M; reflexivity|].
  intros C. rewrite (micro_s3 _ _ _ _ _ p C). exact K1.
Qed.
Lemma micro_decimal ti sw w s s' m n : micro ti sw w s = Ok s' -> s!dead_cycle = 0 -> word_ok w -> CV w = 3 -> is_sum (CC w) -> s'!even_parity = 0 ->
  0 <= m < 100 -> 0 <= n < 100 -> gate_a (CF w) s'!Abus = bcd m -> gate_b (CG w) s'!Bbus = bcd n ->
  let t := m + (if ibit s!S_REG 0 then 99 - n else n) + carry_into (CC w) s!S_REG in
  odd9 s'!Alu_out /\ s'!Alu_out mod 256 = bcd (t mod 100) /\
  ibit s'!STAT_REG 5 = (100 <=? t) /\ (saves_carry (CC w) -> ibit s'!S_REG 3 = (100 <=? t)).
Proof.
  intros H D W V S E Rm Rn Em En t. pose proof (micro_parts _ _ _ _ _ H D) as p.
  pose proof (micro_alu _ _ _ _ _ p W) as A. rewrite E, V, Em, En in A.
  destruct (micro_stat _ _ _ _ _ p) as (T1 & T2 & T3).
  destruct (alu_dec (CC w) m n s!S_REG s!Alu_out S Rm Rn) as (z & k & A' & O & M & K1). fold t in M, K1.
  rewrite A in A'. injection A' as <- <-. rewrite T1. split; [exact O|]. split; [exact M|]. split; [exact K1|].
  intros C. rewrite (micro_s3 _ _ _ _ _ p C). exact K1.
Qed.
Lemma micro_logical ti sw w s s' : micro ti sw w s = Ok s' -> s!dead_cycle = 0 -> word_ok w -> CV w < 3 -> CC w = 2 \/ CC w = 3 \/ CC w = 7 -> s'!even_parity = 0 ->
  let a := gate_a (CF w) s'!Abus in
  let b := gate_b (CG w) s'!Bbus in
  let b' := if complement (CV w) s!S_REG then 255 - b else b in
  odd9 s'!Alu_out /\ s'!Alu_out mod 256 = (if CC w =? 2 then Z.land a b' else if CC w =? 3 then Z.lor a b' else Z.lxor a b') /\
  ibit s'!STAT_REG 5 = false /\ ibit s'!STAT_REG 6 = false /\ ibit s'!STAT_REG 4 = (s'!Alu_out mod 256 =? 0).
Proof.
  intros H D W V S E a b b'. pose proof (micro_parts _ _ _ _ _ H D) as p.
  pose proof (micro_alu _ _ _ _ _ p W) as A. rewrite E in A.
  destruct (micro_stat _ _ _ _ _ p) as (T1 & T2 & T3).
  destruct (alu_log (CV w) (CC w) a b s!S_REG s!Alu_out) as (z & A' & O & M); try assumption; try apply gate_a_range; try apply gate_b_range.
  { unfold word_ok in W. lia. }
  fold b b' in A', M. fold a b in A. rewrite A in A'. injection A' as <- K.
  rewrite T1, T2, T3, K. repeat split; try assumption; apply O.
Qed.
