(** The tape control: reading a tape through the channel. *)
From Verif Require Export T2415.Proofs4.

(** What no tape operation changes. *)
Definition hw (t : tape) := (t_track9 t, t_online t).
Definition hw2 (h : bool * bool) (r : res (tape * status)) : Prop := match r with Ok (t, _) => hw t = h | _ => True end.
Definition hw3 {A} (h : bool * bool) (r : res (tape * status * A)) : Prop := match r with Ok (t, _, _) => hw t = h | _ => True end.
Definition hw1 {A} (h : bool * bool) (r : res (tape * A)) : Prop := match r with Ok (t, _) => hw t = h | _ => True end.
Ltac hwt := repeat match goal with
  | |- context [match ?x with _ => _ end] => destruct x; cbn [bind hw1 hw2 hw3]
  | |- _ => progress cbn [bind hw1 hw2 hw3]
  end; try exact I; try reflexivity.
Lemma hw_read t d : hw3 (hw t) (tape_read_byte t d).
Proof. unfold tape_read_byte, buf_at. hwt. Qed.
Lemma hw_readbk t d : hw3 (hw t) (tape_readbk_byte t d).
Proof. unfold tape_readbk_byte, buf_at. hwt. Qed.
Lemma hw_peek t d : hw3 (hw t) (tape_peek_byte t d).
Proof. unfold tape_peek_byte, buf_at. hwt. Qed.
Lemma hw3_bind A B h (r : res (tape * status * A)) (k : tape * status * A -> res (tape * status * B)) :
  hw3 h r -> (forall t s a, hw t = h -> hw3 h (k (t, s, a))) -> hw3 h (bind r k).
Proof. destruct r as [[[t s] a]| |]; cbn; auto. Qed.
Lemma hw32_bind A h (r : res (tape * status * A)) (k : tape * status * A -> res (tape * status)) :
  hw3 h r -> (forall t s a, hw t = h -> hw2 h (k (t, s, a))) -> hw2 h (bind r k).
Proof. destruct r as [[[t s] a]| |]; cbn; auto. Qed.
Lemma hw_read_bytes n : forall t, hw3 (hw t) (read_bytes n t).
Proof.
  induction n as [|n IH]; intros t; [reflexivity|]. cbn [read_bytes]. apply hw3_bind; [apply hw_read|]. intros t1 s a <-. cbv beta iota.
  destruct s; try reflexivity. apply hw3_bind; [apply IH|]. intros t2 s l H. exact H.
Qed.
Lemma hw_readbk_bytes n : forall t, hw3 (hw t) (readbk_bytes n t).
Proof.
  induction n as [|n IH]; intros t; [reflexivity|]. cbn [readbk_bytes]. apply hw3_bind; [apply hw_readbk|]. intros t1 s a <-. cbv beta iota.
  destruct s; try reflexivity. apply hw3_bind; [apply IH|]. intros t2 s l H. exact H.
Qed.
Lemma hw_rd h t d : hw t = h -> hw3 h (tape_read_byte t d). Proof. intros <-. apply hw_read. Qed.
Lemma hw_rb h t d : hw t = h -> hw3 h (tape_readbk_byte t d). Proof. intros <-. apply hw_readbk. Qed.
Lemma hw_pk h t d : hw t = h -> hw3 h (tape_peek_byte t d). Proof. intros <-. apply hw_peek. Qed.
Lemma hw_rds h n t : hw t = h -> hw3 h (read_bytes n t). Proof. intros <-. apply hw_read_bytes. Qed.
Lemma hw_rbs h n t : hw t = h -> hw3 h (readbk_bytes n t). Proof. intros <-. apply hw_readbk_bytes. Qed.
Lemma hw_read_forw t : hw2 (hw t) (tape_read_forw t).
Proof.
  unfold tape_read_forw. destruct (negb (t_att t)); [reflexivity|]. cbv zeta. destruct (t_eot _); [reflexivity|]. destruct (t_fmt _); try reflexivity.
  1,2: apply hw32_bind; [apply hw_rds; reflexivity|]; intros t1 s l H; cbv beta iota; destruct s; try exact H;
    (destruct (_ =? 4294967295); [|destruct (_ =? 0); exact H]); (apply hw32_bind; [apply hw_rbs; exact H|intros t2 s2 l2 H2; destruct s2; exact H2]).
  apply hw32_bind; [apply hw_pk; reflexivity|]. intros t1 s b H. cbv beta iota zeta. destruct s; try exact H. destruct (b =? p7b_mark); [|exact H].
  apply hw32_bind; [apply hw_rd; exact H|intros t2 s2 l2 H2; destruct s2; exact H2].
Qed.
Lemma hw_read_frame t d : hw3 (hw t) (tape_read_frame t d).
Proof.
  unfold tape_read_frame. cbv zeta. destruct (negb (t_att t)); [reflexivity|]. destruct (t_mark t); [reflexivity|].
  destruct (t_fmt t); try reflexivity; destruct (t_func t); try reflexivity;
    match goal with |- hw3 _ (if ?b then _ else _) => destruct b; [reflexivity|] end; apply hw3_bind; try apply hw_read; try apply hw_readbk; intros t1 s b H; cbv beta iota; try exact H.
  destruct (_ && _); [|exact H]. apply hw3_bind; [rewrite <- H; apply hw_readbk|]. intros t2 s2 b2 H2. exact H2.
Qed.
Lemma hw_skip n : forall t d, hw1 (hw t) (skip_forw n t d).
Proof.
  induction n as [|n IH]; intros t d; cbn [skip_forw]; destruct (_ <? _); try reflexivity. pose proof (hw_read_frame t d) as X.
  destruct (tape_read_frame t d) as [[[t1 s] d1]| |]; cbn [bind]; try exact I. cbn in X. rewrite <- X. apply IH.
Qed.
Lemma hw_finish_read n j t : tap_like (t_fmt t) -> t_func t = FRead -> hw2 (hw t) (tape_finish_rec n j t).
Proof.
  intros TL FU. unfold tape_finish_rec. destruct (negb (t_att t)); [reflexivity|]. pose proof (hw_skip n t j) as X. rewrite FU.
  destruct TL as [-> | ->]; (destruct (t_mark t); [reflexivity|]); destruct (skip_forw n t j) as [[t1 d]| |]; cbn [bind]; try exact I; cbn in X; rewrite <- X; clear X;
    destruct (t_fmt t1); try destruct (Z.odd _); cbn [bind];
    try (pose proof (hw_read t1 0) as X; destruct (tape_read_byte t1 0) as [[[t2 s2] d2]| |]; cbn [bind]; try exact I; cbn in X; rewrite <- X; clear X);
    (apply hw32_bind; [apply hw_read_bytes|]; intros t3 s3 l3 H; destruct s3; exact H).
Qed.
Lemma seen_app a l1 : forall s l2, seen a s (l1 ++ l2) = (let* (s1, d1, t1) := seen a s l1 in let* (s2, d2, t2) := seen a s1 l2 in Ok (s2, d1 ++ d2, t1 ++ t2)).
Proof.
  induction l1 as [|x l1 IH]; intros s l2; cbn [app seen bind].
  - destruct (seen a s l2) as [[[s2 d2] t2]| |]; reflexivity.
  - match goal with |- bind ?r _ = _ => destruct r as [[[s1 d] st]| |] end; cbn [bind]; try reflexivity. rewrite IH.
    destruct (seen a s1 l1) as [[[s2 d2] t2]| |]; cbn [bind]; try reflexivity. destruct (seen a s2 l2) as [[[s3 d3] t3]| |]; cbn [bind]; try reflexivity. rewrite !app_assoc. reflexivity.
Qed.
Lemma seen_chan a s t bo bi r s1 t1 b1 : dev_step a s t bo bi = Ok (s1, t1, b1) ->
  seen a s (Chan t bo bi :: r) = (let* (s2, ds, sts) := seen a s1 r in
    Ok (s2, (if negb (srvi t) && srvi t1 then [Z.land b1 255] else []) ++ ds, (if negb (stai t) && stai t1 then [Z.land b1 255] else []) ++ sts)).
Proof. intros H. cbn [seen]. rewrite H. reflexivity. Qed.
Lemma seen_fire a s fuel junk k u r s1 : fire fuel junk s k u = Ok s1 -> seen a s (Fire fuel junk k u :: r) = seen a s1 r.
Proof. intros H. cbn [seen astep]. rewrite H. cbn [bind]. destruct (seen a s1 r) as [[[s2 ds] sts]| |]; reflexivity. Qed.
Ltac dred := cbv beta iota zeta delta [set_st set_sel set_req set_stk set_sense0 set_sense1 set_sense2 set_sense3 set_scnt set_busy set_chain set_cmd set_cmd_done set_status set_data set_cbuf set_data_rdy set_data_end set_post set_cbusy set_cur set_statu set_scan set_rew set_run set_rdyf set_mrk set_tapes set_cc set_mode7 set_mode9 set_pend or_sense or_status add_ev set_tape clear_sense start_ev
  d_st d_sel d_req d_stk d_sense0 d_sense1 d_sense2 d_sense3 d_scnt d_busy d_chain d_cmd d_cmd_done d_status d_data d_cbuf d_data_rdy d_data_end d_post d_cbusy d_cur d_statu d_scan d_rew d_run d_rdyf d_mrk d_tapes d_cc d_mode7 d_mode9 d_pend
  out_tags set_opri set_adri set_srvi set_stai set_reqi set_selo opri adri stai srvi reqi selo adro hldo cmdo srvo supo opro negb andb orb bind app].

Definition reading (u : Z) (t : tape) (s : dev) : Prop :=
  d_st s = OPR /\ d_sel s = true /\ d_busy s = false /\ d_cmd s = 2 /\ d_cmd_done s = false /\ d_data_rdy s = false /\ d_data_end s = false /\ d_status s = 0 /\
  d_stk s = false /\ d_rdyf s = 0 /\ d_sense0 s = 0 /\ bit (d_sense1 s) S_NOISE = false /\ d_sense3 s = 0 /\
  Z.land (Z.lor (d_rew s) (d_run s)) (2 ^ u) = 0 /\ d_cur s = u /\ d_pend s = [(CbTape, u)] /\
  nth_error (d_tapes s) (Z.to_nat u) = Some (Some t) /\ tape_ready t = true /\ tape_9_track t = true.
Lemma nth_upd (l : list (option tape)) n t0 t : nth_error l n = Some t0 -> nth_error (upd l n (Some t)) n = Some (Some t).
Proof. intros H. apply upd_same. apply nth_error_Some. congruence. Qed.
Lemma has_zero n : has 0 n = false.
Proof. reflexivity. Qed.
Lemma addr_bits a u y : 0 <= u < 6 -> Z.land y 255 = Z.lor (Z.land a 248) u -> Z.land y 248 = Z.land a 248 /\ Z.land y 7 = u.
Proof.
  intros U E. split.
  - change 248 with (Z.land 255 248). rewrite Z.land_assoc, E, Z.land_lor_distr_l, <- Z.land_assoc. change (Z.land (Z.land 255 248) 248) with (Z.land 255 248).
    assert (X : Z.land u 248 = 0) by (assert (C : u = 0 \/ u = 1 \/ u = 2 \/ u = 3 \/ u = 4 \/ u = 5) by lia; destruct C as [->|[->|[->|[->|[->| ->]]]]]; reflexivity).
    rewrite X, Z.lor_0_r. reflexivity.
  - change 7 with (Z.land 255 7) at 1. rewrite Z.land_assoc, E, Z.land_lor_distr_l, <- Z.land_assoc. change (Z.land 248 7) with 0. rewrite Z.land_0_r, Z.lor_0_l.
    assert (C : u = 0 \/ u = 1 \/ u = 2 \/ u = 3 \/ u = 4 \/ u = 5) by lia; destruct C as [->|[->|[->|[->|[->| ->]]]]]; reflexivity.
Qed.

Definition sense1_of (t : tape) : Z :=
  Z.lor (Z.lor S_TUA (if tape_ring t then 0 else S_NORING)) (if tape_at_loadpt t then S_LOAD else 0).
Lemma cmd_read_flat v1 v2 v5 v6 v8 v10 v11 v12 v14 v15 v16 v17 v18 v19 u v21 v22 rew run v26 ts v28 v29 v30 t t1 r :
  0 <= u < 6 -> nth_error ts (Z.to_nat u) = Some (Some t) -> tape_ready t = true -> tape_9_track t = true -> bit v5 S_NOISE = false ->
  Z.land (Z.lor rew run) (2 ^ u) = 0 -> tape_read_forw (tape_selected true t) = Ok (t1, r) -> not_error r = true ->
  device_cmd (mkD STATUS v1 v2 false 0 v5 v6 0 v8 false v10 v11 v12 0 v14 v15 v16 v17 v18 v19 u v21 v22 rew run 0 v26 ts v28 v29 v30 []) 2 =
  Ok (mkD STATUS v1 v2 false 0 (sense1_of t) 3 0 v8 false v10 2 false 0 v14 v15 false false v18 v19 u (-1) v22 rew run (drop 0 u) (drop v26 u)
     (upd (upd ts (Z.to_nat u) (Some (tape_selected true t))) (Z.to_nat u) (Some t1)) 0 v29 v30 [(CbTape, u)]).
Proof.
  intros U HN RD TR NZ RR RF NE. unfold device_cmd. change (Z.land 2 15) with 2. dred. change (0 =? 0) with true. change (2 =? 4) with false. rewrite NZ. change (bit 0 (S_VCR + S_LRCR)) with false.
  dred. replace (if if u =? v21 then true else false then false else false) with false by (destruct (u =? v21); reflexivity).
  unfold cmd_begin, unit_tape. dred.
  rewrite (proj2 (Z.ltb_ge u 0)) by lia. rewrite HN. dred. rewrite RD. rewrite RR. change (0 =? 0) with true. dred. rewrite TR. dred.
  change (2 =? 0) with false. change (2 =? 1) with false. change (2 =? 5) with false. change (2 =? 9) with false. change (2 =? 13) with false. change (2 =? 2) with true. dred.
  assert (A : t_att (tape_selected true t) = true) by (unfold tape_ready in RD; apply andb_true_iff in RD; apply RD).
  unfold cmd_read, sense1_of. dred. destruct (tape_ring t), (tape_at_loadpt t).
  all: match goal with |- context [bit ?x S_TUB] => change (bit x S_TUB) with false end; dred;
    unfold the_tape, unit_tape; dred; rewrite (proj2 (Z.ltb_ge u 0)) by lia; rewrite (nth_upd _ _ _ _ HN); dred; rewrite A; dred; rewrite RF; dred; rewrite NE; dred; unfold cmd_end; dred; reflexivity.
Qed.
Lemma noise_of t : bit (sense1_of t) S_NOISE = false.
Proof. unfold sense1_of. destruct (tape_ring t), (tape_at_loadpt t); reflexivity. Qed.
Ltac flat s := destruct s as [v0 v1 v2 v3 v4 v5 v6 v7 v8 v9 v10 v11 v12 v13 v14 v15 v16 v17 v18 v19 v20 v21 v22 v23 v24 v25 v26 v27 v28 v29 v30 v31].
Ltac fld R := cbn [d_st d_sel d_req d_stk d_sense0 d_sense1 d_sense2 d_sense3 d_scnt d_busy d_chain d_cmd d_cmd_done d_status d_data d_cbuf d_data_rdy d_data_end d_post d_cbusy d_cur d_statu d_scan d_rew d_run d_rdyf d_mrk d_tapes d_cc d_mode7 d_mode9 d_pend] in R.
Lemma begin_ok a pa s u t t1 r : ready9 u t s -> 0 <= u < 6 -> with_parity (Z.lor (Z.land a 248) u) = Ok pa ->
  tape_read_forw (tape_selected true t) = Ok (t1, r) -> not_error r = true -> t_att t1 = true -> exists s', seen a s (begin_op pa 2) = Ok (s', [], [0]) /\ reading u t1 s'.
Proof.
  intros R U W RF NE A1.
  assert (T1 : hw t1 = hw t) by (pose proof (hw_read_forw (tape_selected true t)) as X; rewrite RF in X; exact X).
  assert (UB : 0 <= Z.lor (Z.land a 248) u < 256).
  { apply lor_byte; [rewrite Z.land_comm; apply land_le; lia|lia]. }
  destruct (with_parity_ok _ UB) as (y & W' & _ & L & _). rewrite W in W'. injection W' as <-.
  destruct (addr_bits a u pa U L) as [L1 L2]. pose proof (parity_good _ _ UB W) as BP.
  destruct (with_parity_ok _ (land_byte a)) as (pz & WZ & _).
  flat s. unfold ready9, between in R. fld R. destruct R as ((-> & -> & -> & -> & -> & -> & NZ & -> & RR & -> & HN & RD) & TR).
  unfold begin_op.
  assert (B2 : bad_parity 2 = Ok false) by reflexivity. assert (W0 : with_parity 0 = Ok 256) by reflexivity.
  destruct v2.
  all: erewrite seen_chan by (unfold dev_step; dred; rewrite has_zero; dred; rewrite L1, Z.eqb_refl, BP; dred; change (0 =? 0) with true; dred; rewrite L2; unfold unit_addr; dred; rewrite W; dred; reflexivity).
  all: erewrite seen_chan by (unfold dev_step, unit_addr; dred; rewrite W; dred; reflexivity).
  all: erewrite seen_chan by (unfold dev_step; dred; rewrite WZ; dred; rewrite B2; dred; change (0 =? 0) with true; dred; change (Z.land 2 255) with 2;
    rewrite (cmd_read_flat _ _ _ _ _ _ _ _ _ _ _ _ _ _ _ _ _ _ _ _ _ _ _ _ t t1 r U HN RD TR NZ RR RF NE); reflexivity).
  all: erewrite seen_chan by (unfold dev_step; dred; rewrite W0; dred; reflexivity).
  all: erewrite seen_chan by (unfold dev_step; dred; rewrite W0; dred; change (2 =? 0) with false; dred; reflexivity).
  all: cbn [seen]; dred; eexists; split; [reflexivity|].
  all: unfold reading; cbn [d_tapes]; repeat split; try reflexivity; try exact (noise_of t); try exact RR.
  all: try (eapply nth_upd, nth_upd; exact HN); unfold tape_ready, tape_9_track, hw in *; injection T1 as X1 X2; try congruence.
  all: apply andb_true_iff in RD; rewrite A1, X2; apply RD.
Qed.

(** The head is [m] frames before the end of a record of [N] frames, at byte [k] of the tape. *)
Definition mid (c : list Z) (t : tape) (k m N : nat) : Prop :=
  on t c k /\ tap_like (t_fmt t) /\ t_func t = FRead /\ t_mark t = false /\ t_parity t = false /\
  0 <= t_lrecl t /\ t_lrecl t + Z.of_nat m = Z.of_nat N /\ t_orecl t = Z.of_nat N /\ Z.of_nat N < 4294967296 /\ (k + m + pad (t_fmt t) N + 4 <= length c)%nat.
Lemma frame_end c t k N d : mid c t k 0 N -> tape_read_frame t d = Ok (t, SEob, d).
Proof.
  intros (O & TF & FU & MK & PA & L0 & L1 & L2 & L3 & LC). unfold tape_read_frame. pose proof O as [A _]. rewrite A, MK, FU. cbn [negb].
  replace (t_orecl t <=? t_lrecl t) with true by lia. destruct TF as [F|F]; rewrite F; reflexivity.
Qed.
Lemma frame_step c t k m N d : mid c t k (S m) N -> exists t' b, nth_error c k = Some b /\ tape_read_frame t d = Ok (t', SOk, b) /\ mid c t' (S k) m N /\ hw t' = hw t /\ alike t t' /\ t_bot t' = t_bot t.
Proof.
  intros (O & TF & FU & MK & PA & L0 & L1 & L2 & L3 & LC). destruct (read_byte_on t c k d O ltac:(lia)) as (w1 & b & N1 & E1 & O2 & R1).
  assert (E : exists fr, tape_read_frame t d = Ok (set_frame (set_lrecl (set_win t w1) (t_lrecl t + 1)) fr, SOk, b)).
  { unfold tape_read_frame. pose proof O as [A _]. rewrite A, MK, FU. cbn [negb]. replace (t_orecl t <=? t_lrecl t) with false by lia. rewrite E1. cbn [bind].
    unfold u32. cbn [t_lrecl set_win]. rewrite Z.mod_small by lia. destruct TF as [F|F]; rewrite F; eexists; reflexivity. }
  destruct E as [fr E]. do 2 eexists. split; [exact N1|]. split; [exact E|]. split; [|split; [reflexivity|split; [|reflexivity]]].
  - unfold mid. cbn [t_fmt t_func t_mark t_parity t_lrecl t_orecl set_frame set_lrecl set_win]. repeat split; auto; try apply O2; lia.
  - unfold alike. cbn. auto.
Qed.

Lemma quiet_ok a s u t w : reading u t s -> exists s', seen a s (repeat quiet w) = Ok (s', [], []) /\ reading u t s'.
Proof.
  revert s; induction w as [|w IH]; intros s R; [exists s; split; [reflexivity|exact R]|]. cbn [repeat]. unfold quiet at 1.
  flat s. unfold reading in R. fld R. destruct R as (-> & -> & -> & -> & -> & -> & -> & -> & -> & -> & -> & NZ & -> & RR & -> & -> & HN & RD & TR).
  erewrite seen_chan by (unfold dev_step; dred; change (Z.land 2 15 =? 4) with false; dred; reflexivity).
  edestruct IH as (s' & S1 & R'); [|rewrite S1; cbn [bind]; exists s'; split; [dred; reflexivity|exact R']].
  unfold reading; cbn [d_tapes]; repeat split; try assumption; reflexivity.
Qed.
Lemma ev_same k u : ev_eqb (k, u) (k, u) = true.
Proof. unfold ev_eqb. cbn. rewrite Z.eqb_refl. destruct k; reflexivity. Qed.
Lemma byte_ok a s u t t' b fuel junk w : reading u t s -> 0 <= u < 6 -> (forall d, tape_read_frame t d = Ok (t', SOk, b)) -> 0 <= b < 256 -> tape_ready t' = true -> tape_9_track t' = true ->
  exists s', seen a s (read_byte_op fuel junk u w) = Ok (s', [b], []) /\ reading u t' s'.
Proof.
  intros R U F B RD1 TR1. unfold read_byte_op. rewrite seen_app. destruct (quiet_ok a s u t w R) as (s0 & -> & R0). cbn [bind]. clear R s.
  destruct (with_parity_ok b B) as (y & W & _ & L & _).
  flat s0. unfold reading in R0. fld R0. destruct R0 as (-> & -> & -> & -> & -> & -> & -> & -> & -> & -> & -> & NZ & -> & RR & -> & -> & HN & RD & TR).
  pose proof (nth_upd _ _ _ t' HN) as HN'.
  erewrite seen_fire by (unfold fire; dred; cbn [existsb remove_ev]; rewrite ev_same; dred; unfold tape_cb; dred; change (Z.land 2 15) with 2;
    change (2 =? 1) with false; change (2 =? 5) with false; change (2 =? 9) with false; change (2 =? 13) with false; change (2 =? 2) with true; dred;
    unfold read_part, the_tape, unit_tape; dred; rewrite (proj2 (Z.ltb_ge u 0)) by lia; rewrite HN; dred; rewrite F; dred; unfold nine, unit_tape; dred;
    rewrite (proj2 (Z.ltb_ge u 0)) by lia; rewrite HN'; dred; rewrite TR1; dred; reflexivity).
  rewrite (Z.mod_small b) by exact B. unfold quiet.
  erewrite seen_chan by (unfold dev_step; dred; reflexivity).
  erewrite seen_chan by (unfold dev_step; dred; rewrite W; dred; reflexivity).
  erewrite seen_chan by (unfold dev_step; dred; rewrite W; dred; unfold bit; change (negb (Z.land 2 1 =? 0)) with false; cbv iota; dred; reflexivity).
  cbn [seen]. dred. rewrite L. eexists. split; [reflexivity|]. unfold reading; cbn [d_tapes]; repeat split; try assumption; reflexivity.
Qed.
Lemma hw_ready t t' : hw t' = hw t -> t_att t' = true -> tape_ready t = true -> tape_9_track t = true -> tape_ready t' = true /\ tape_9_track t' = true.
Proof.
  unfold hw, tape_ready, tape_9_track. intros H A R T. injection H as H1 H2. split; [|congruence]. apply andb_true_iff in R. rewrite A, H2. apply R.
Qed.
Lemma bytes_ok a u c N fuel junk : 0 <= u < 6 -> forall ws t k s, mid c t k (length ws) N -> reading u t s -> Forall (fun b => 0 <= b < 256) (firstn (length ws) (skipn k c)) ->
  exists s' t', seen a s (concat (map (read_byte_op fuel junk u) ws)) = Ok (s', firstn (length ws) (skipn k c), []) /\ reading u t' s' /\ mid c t' (k + length ws) 0 N /\ hw t' = hw t /\ alike t t' /\ t_bot t' = t_bot t.
Proof.
  intros U. induction ws as [|w ws IH]; intros t k s M R F.
  - exists s, t. cbn [length map concat firstn] in *. rewrite Nat.add_0_r. split; [reflexivity|]. split; [exact R|]. split; [exact M|]. split; [reflexivity|]. split; [repeat split|reflexivity].
  - cbn [length map concat] in *. destruct (frame_step c t k (length ws) N 0 M) as (t' & b & N1 & E1 & M' & H' & AL & BT).
    rewrite (slice_cons c k b N1) in F |- *. cbn [firstn] in F |- *. inversion F as [|? ? FB FR]; subst.
    assert (E : forall d, tape_read_frame t d = Ok (t', SOk, b)).
    { intros d. destruct (frame_step c t k (length ws) N d M) as (t2 & b2 & N2 & E2 & _). rewrite E2. pose proof M as ((A & _) & TF & FU & MK & _ & L0 & L1 & L2 & _).
      revert E1 E2. unfold tape_read_frame. rewrite A, MK, FU. cbn [negb]. replace (t_orecl t <=? t_lrecl t) with false by lia.
      destruct M as (O & _ & _ & _ & _ & _ & _ & _ & _ & LC). destruct (read_byte_on t c k 0 O ltac:(lia)) as (w1 & b1 & N3 & X1 & _ & _). destruct (read_byte_on t c k d O ltac:(lia)) as (w2 & b3 & N4 & X2 & _ & _).
      assert (W : w1 = w2).
      { clear -X1 X2. unfold tape_read_byte in X1, X2. destruct (negb (t_att t)); [discriminate|]. destruct (advance_win _) as [[w e]|]; [|discriminate]. destruct e; [discriminate|].
        destruct (buf_at _ _); cbn [bind] in *; try discriminate. apply (f_equal (fun r => match r with Ok (t, _, _) => t_win t | _ => w1 end)) in X1, X2. cbn in X1, X2. congruence. }
      subst w2. rewrite X1, X2. cbn [bind]. assert (b3 = b1) by congruence. subst b3. destruct TF as [-> | ->]; intros <- <-; reflexivity. }
    pose proof R as (_ & _ & _ & _ & _ & _ & _ & _ & _ & _ & _ & _ & _ & _ & _ & _ & _ & RD & TR).
    destruct (hw_ready t t' H' ltac:(apply M') RD TR) as [RD' TR'].
    destruct (byte_ok a s u t t' b fuel junk w R U E FB RD' TR') as (s1 & S1 & R1).
    destruct (IH t' (S k) s1 M' R1 FR) as (s2 & t2 & S2 & R2 & M2 & H2 & AL2 & BT2). exists s2, t2.
    rewrite seen_app, S1. cbn [bind]. rewrite S2. cbn [bind app]. split; [reflexivity|]. split; [exact R2|].
    split; [replace (k + S (length ws))%nat with (S k + length ws)%nat by lia; exact M2|]. split; [congruence|]. split; [eapply alike_trans; eassumption|congruence].
Qed.
Lemma end_rec_ok a u c N k t s fuel junk d : 0 <= u < 6 -> mid c t k 0 N -> reading u t s ->
  exists s' t', seen a s (end_op fuel junk u (Rec d) ++ take_status) = Ok (s', [], [12]) /\ ready9 u t' s' /\ tape_finish_rec fuel junk t = Ok (t', SOk) /\ on t' c (k + pad (t_fmt t) N + 4) /\ alike t t' /\ t_bot t' = t_bot t.
Proof.
  intros U M R. pose proof (frame_end c t k N) as FE. pose proof M as (O & TF & FU & MK & PA & L0 & L1 & L2 & L3 & LC).
  destruct (finish_tap t c k 0 fuel junk N O TF FU MK PA L0 L2 L1 L3 LC ltac:(lia)) as (t' & E & O' & AL & BT & _).
  pose proof (hw_finish_read fuel junk t TF FU) as H'. rewrite E in H'. cbn in H'.
  pose proof R as (_ & _ & _ & _ & _ & _ & _ & _ & _ & _ & _ & _ & _ & _ & _ & _ & _ & RD0 & TR0).
  destruct (hw_ready t t' H' ltac:(apply O') RD0 TR0) as [RD' TR'].
  flat s. unfold reading in R. fld R. destruct R as (-> & -> & -> & -> & -> & -> & -> & -> & -> & -> & -> & NZ & -> & RR & -> & -> & HN & RD & TR).
  pose proof (nth_upd _ _ _ t HN) as HN1. pose proof (nth_upd _ _ _ t HN1) as HN2. pose proof (nth_upd _ _ _ t' HN2) as HN3.
  eexists. exists t'. split; [|split; [|split; [exact E|split; [rewrite Nat.add_0_r in O'; exact O'|split; [exact AL|exact BT]]]]].
  - cbn [end_op app]. unfold take_status.
    erewrite seen_fire by (unfold fire; dred; cbn [existsb remove_ev]; rewrite ev_same; dred; unfold tape_cb; dred; change (Z.land 2 15) with 2;
      change (2 =? 1) with false; change (2 =? 5) with false; change (2 =? 9) with false; change (2 =? 13) with false; change (2 =? 2) with true; dred;
      unfold read_part, the_tape, unit_tape; dred; rewrite (proj2 (Z.ltb_ge u 0)) by lia; rewrite HN; dred; rewrite FE by exact M; dred; unfold nine, unit_tape; dred;
      rewrite (proj2 (Z.ltb_ge u 0)) by lia; rewrite HN1; dred; rewrite TR; dred; reflexivity).
    erewrite seen_fire by (unfold fire; dred; cbn [existsb remove_ev]; rewrite ev_same; dred; unfold tape_cb; dred; change (Z.land 2 15) with 2;
      change (2 =? 1) with false; change (2 =? 5) with false; change (2 =? 9) with false; change (2 =? 13) with false; change (2 =? 2) with true; dred;
      unfold read_part, the_tape, unit_tape; dred; rewrite (proj2 (Z.ltb_ge u 0)) by lia; rewrite HN1; dred; rewrite FE by exact M; dred; rewrite E; dred; reflexivity).
    erewrite seen_fire by (unfold fire; dred; cbn [existsb remove_ev]; rewrite ev_same; dred; unfold done_cb; dred; change (Z.land 2 3 =? 3) with false; dred; reflexivity).
    unfold quiet. erewrite seen_chan by (unfold dev_step; dred; change (Z.land 2 15 =? 4) with false; dred; reflexivity).
    assert (W : with_parity (Z.lor (Z.lor (Z.lor 0 SNS_CHNEND) SNS_DEVEND) (SNS_DEVEND + SNS_CHNEND)) = Ok 268) by reflexivity.
    erewrite seen_chan by (unfold dev_step; dred; rewrite W; dred; reflexivity).
    erewrite seen_chan by (unfold dev_step; dred; rewrite W; dred; reflexivity).
    erewrite seen_chan by (unfold dev_step; dred; reflexivity).
    cbn [seen]. dred. reflexivity.
  - unfold ready9, between; cbn [d_tapes]; repeat split; try assumption; reflexivity.
Qed.
Lemma end_mark_ok a u t s fuel junk : 0 <= u < 6 -> t_att t = true -> t_mark t = true -> reading u t s ->
  exists s', seen a s (end_op fuel junk u Mark ++ take_status) = Ok (s', [], [13]) /\ ready9 u t s'.
Proof.
  intros U A MK R. assert (FE : forall d, tape_read_frame t d = Ok (t, SMark, d)) by (intros d; unfold tape_read_frame; rewrite A, MK; reflexivity).
  flat s. unfold reading in R. fld R. destruct R as (-> & -> & -> & -> & -> & -> & -> & -> & -> & -> & -> & NZ & -> & RR & -> & -> & HN & RD & TR).
  pose proof (nth_upd _ _ _ t HN) as HN1.
  eexists. split.
  - cbn [end_op app]. unfold take_status.
    erewrite seen_fire by (unfold fire; dred; cbn [existsb remove_ev]; rewrite ev_same; dred; unfold tape_cb; dred; change (Z.land 2 15) with 2;
      change (2 =? 1) with false; change (2 =? 5) with false; change (2 =? 9) with false; change (2 =? 13) with false; change (2 =? 2) with true; dred;
      unfold read_part, the_tape, unit_tape; dred; rewrite (proj2 (Z.ltb_ge u 0)) by lia; rewrite HN; dred; rewrite FE; dred; reflexivity).
    erewrite seen_fire by (unfold fire; dred; cbn [existsb remove_ev]; rewrite ev_same; dred; unfold done_cb; dred; change (Z.land 2 3 =? 3) with false; dred; reflexivity).
    unfold quiet. erewrite seen_chan by (unfold dev_step; dred; change (Z.land 2 15 =? 4) with false; dred; reflexivity).
    assert (W : with_parity (Z.lor (Z.lor (Z.lor 0 (SNS_UNITEXP + SNS_CHNEND)) SNS_DEVEND) (SNS_DEVEND + SNS_CHNEND)) = Ok 13) by reflexivity.
    erewrite seen_chan by (unfold dev_step; dred; rewrite W; dred; reflexivity).
    erewrite seen_chan by (unfold dev_step; dred; rewrite W; dred; reflexivity).
    erewrite seen_chan by (unfold dev_step; dred; reflexivity).
    cbn [seen]. dred. reflexivity.
  - unfold ready9, between; cbn [d_tapes]; repeat split; try assumption; reflexivity.
Qed.
Lemma read_cmd_ok a pa u s t f pre x post fuel junk ws : let c := pre ++ encode1 f x ++ post in
  ready9 u t s -> 0 <= u < 6 -> with_parity (Z.lor (Z.land a 248) u) = Ok pa ->
  on t c (length pre) -> tap_like f -> t_fmt t = f -> t_eot t = false -> good_item f x -> length ws = length (frames_of x) ->
  exists s' t', seen a s (read_op fuel junk pa u x ws) = Ok (s', frames_of x, [0; end_status x]) /\ ready9 u t' s' /\
    on t' c (length pre + length (encode1 f x)) /\ alike t t' /\ t_bot t' = false.
Proof.
  intros c RD U W O TL F ET G LW. unfold read_op. destruct x as [d|].
  - destruct (read_forw_rec (tape_selected true t) f pre d post O TL F ET G) as (t1 & E1 & O1 & AL1 & B1 & FU & MK & PA & LR & OR).
    destruct (pad_encode f d TL) as (p & Ep & Lp & _).
    assert (Ec : c = (pre ++ le32 (Z.of_nat (length d))) ++ d ++ (p ++ le32 (Z.of_nat (length d)) ++ post)) by (unfold c; rewrite Ep, <- !app_assoc; reflexivity).
    assert (GL : Z.of_nat (length d) < 4294967295) by (destruct G as [_ G2]; destruct TL as [-> | ->]; apply G2).
    assert (GB : Forall (fun b => 0 <= b < 256) d) by (destruct G as [_ G2]; destruct TL as [-> | ->]; apply G2).
    assert (F1 : t_fmt t1 = f) by (destruct AL1 as [-> _]; exact F).
    assert (Lc : (length pre + 4 + length d + pad f (length d) + 4 <= length c)%nat) by (rewrite Ec, !app_length, !le32_length, Lp; lia).
    assert (M : mid c t1 (length pre + 4) (length ws) (length d)).
    { cbn [frames_of] in LW. unfold mid. rewrite F1, LW, OR, LR. repeat split; auto; try apply O1; lia. }
    assert (Ed : firstn (length ws) (skipn (length pre + 4) c) = d).
    { cbn [frames_of] in LW. rewrite LW, Ec. apply slice_mid; [rewrite app_length, le32_length; reflexivity|reflexivity]. }
    destruct (begin_ok a pa s u t t1 SOk RD U W E1 eq_refl ltac:(apply O1)) as (s1 & S1 & R1).
    destruct (bytes_ok a u c (length d) fuel junk U ws t1 _ s1 M R1) as (s2 & t2 & S2 & R2 & M2 & _ & AL2 & B2); [rewrite Ed; exact GB|]. rewrite Ed in S2.
    destruct (end_rec_ok a u c (length d) _ t2 s2 fuel junk d U M2 R2) as (s3 & t3 & S3 & R3 & _ & O3 & AL3 & B3).
    exists s3, t3. rewrite seen_app, S1. cbn [bind]. rewrite seen_app, S2. cbn [bind]. rewrite S3. cbn [bind app]. rewrite app_nil_r. split; [reflexivity|]. split; [exact R3|].
    split; [|split; [eapply alike_trans; [exact AL1|eapply alike_trans; eassumption]|congruence]].
    rewrite encode1_tap_len by exact TL. cbn [frames_of] in LW. assert (F2 : t_fmt t2 = f) by (destruct AL2 as [-> _]; exact F1). rewrite F2, LW in O3.
    replace (length pre + (4 + length d + pad f (length d) + 4))%nat with (length pre + 4 + length d + pad f (length d) + 4)%nat by lia. exact O3.
  - destruct (read_forw_mark (tape_selected true t) f pre post O TL F ET) as (t1 & E1 & O1 & AL1 & B1 & MK).
    destruct (begin_ok a pa s u t t1 SMark RD U W E1 eq_refl ltac:(apply O1)) as (s1 & S1 & R1).
    destruct (end_mark_ok a u t1 s1 fuel junk U ltac:(apply O1) MK R1) as (s2 & S2 & R2).
    destruct ws as [|? ?]; [|discriminate LW]. exists s2, t1. rewrite seen_app, S1. cbn [bind map concat app]. rewrite S2. cbn [bind app]. split; [reflexivity|]. split; [exact R2|].
    split; [|split; [exact AL1|exact B1]]. destruct TL as [-> | ->]; exact O1.
Qed.
Lemma read_tape_ok a pa u fuel junk f : 0 <= u < 6 -> with_parity (Z.lor (Z.land a 248) u) = Ok pa -> tap_like f -> forall l s t pre post,
  ready9 u t s -> on t (pre ++ encode f (map fst l) ++ post) (length pre) -> t_fmt t = f -> t_eot t = false ->
  Forall (fun xw => good_item f (fst xw) /\ length (snd xw) = length (frames_of (fst xw))) l ->
  exists s' t', commands a s (map (fun xw => read_op fuel junk pa u (fst xw) (snd xw)) l) = Ok (s', map (fun xw => (frames_of (fst xw), [0; end_status (fst xw)])) l) /\
    ready9 u t' s' /\ on t' (pre ++ encode f (map fst l) ++ post) (length pre + length (encode f (map fst l))) /\ alike t t'.
Proof.
  intros U W TL. induction l as [|[x ws] l IH]; intros s t pre post R O F ET G.
  - exists s, t. cbn [map commands encode flat_map app length] in *. rewrite Nat.add_0_r. split; [reflexivity|]. split; [exact R|]. split; [exact O|repeat split].
  - inversion G as [|? ? [G1 LW] G2]; subst. cbn [map fst snd commands] in *.
    assert (EE : pre ++ encode (t_fmt t) (x :: map fst l) ++ post = pre ++ encode1 (t_fmt t) x ++ (encode (t_fmt t) (map fst l) ++ post)) by (unfold encode; cbn [flat_map]; rewrite <- app_assoc; reflexivity).
    rewrite EE in O |- *.
    destruct (read_cmd_ok a pa u s t (t_fmt t) pre x _ fuel junk ws R U W O TL eq_refl ET G1 LW) as (s1 & t1 & S1 & R1 & O1 & AL & B1).
    rewrite S1. cbn [bind].
    assert (F1 : t_fmt t1 = t_fmt t) by apply AL. assert (ET1 : t_eot t1 = false) by (destruct AL as (_ & _ & -> & _); exact ET).
    assert (E2 : pre ++ encode1 (t_fmt t) x ++ encode (t_fmt t) (map fst l) ++ post = (pre ++ encode1 (t_fmt t) x) ++ encode (t_fmt t) (map fst l) ++ post) by (rewrite <- app_assoc; reflexivity).
    rewrite E2 in O1 |- *. rewrite <- app_length in O1.
    destruct (IH s1 t1 _ post R1 O1 F1 ET1 G2) as (s2 & t2 & S2 & R2 & O2 & AL2). exists s2, t2. rewrite S2. cbn [bind]. split; [reflexivity|]. split; [exact R2|].
    split; [|eapply alike_trans; eassumption]. unfold encode at 2. cbn [flat_map]. rewrite app_length. rewrite app_length in O2. fold (encode (t_fmt t) (map fst l)). rewrite Nat.add_assoc. exact O2.
Qed.
