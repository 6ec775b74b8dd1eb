(** The card reader and punch: reading a card. *)
From Verif Require Export R1442.Proofs3.

Lemma seen_app a l1 : forall s l2, seen a s (l1 ++ l2) = (let* (s1, d1, t1) := seen a s l1 in let* (s2, d2, t2) := seen a s1 l2 in Ok (s2, d1 ++ d2, t1 ++ t2)).
Proof.
  induction l1 as [|x l1 IH]; intros s l2; cbn [app seen bind].
  - destruct (seen a s l2) as [[[s2 d2] t2]| |]; reflexivity.
  - match goal with |- bind ?r _ = _ => destruct r as [[[s1 d] st]| |] end; cbn [bind]; try reflexivity. rewrite IH.
    destruct (seen a s1 l1) as [[[s2 d2] t2]| |]; cbn [bind]; try reflexivity. destruct (seen a s2 l2) as [[[s3 d3] t3]| |]; cbn [bind]; try reflexivity. rewrite !app_assoc. reflexivity.
Qed.
Definition reading (c : card) (k : Z) (s : dev) : Prop :=
  d_st s = OPR /\ d_sel s = true /\ d_busy s = true /\ d_cmd s = 2 /\ d_cmd_done s = false /\ d_data_rdy s = false /\ d_data_end s = false /\ d_status s = 0 /\
  d_rdr_card s = c /\ d_rdr_col s = k /\ d_pend s = [CbRead] /\ d_stk s = false.
Lemma col_byte h : 0 <= h < 4096 -> exists d e, hol_to_ebcdic h = Ok d /\ column_byte h e /\ 0 <= d <= 256 /\ 0 <= e < 256 /\ (if d =? 256 then 0 else d) = e.
Proof.
  intros H. destruct (hol_table_inverse h H) as (d & E & [->|[R I]]).
  - exists 256, 0. split; [exact E|]. split; [right; split; [reflexivity|]|repeat split; lia]. intros x X N. destruct (ebcdic_inverse x X) as (h' & _ & I1 & I2). unfold ebcdic_to_hol in I1. assert (h' = h) by congruence. subst h'. rewrite E in I2. injection I2 as <-. lia.
  - exists d, d. split; [exact E|]. split; [left; split; [exact R|exact I]|]. repeat split; try lia. destruct (Z.eqb_spec d 256); lia.
Qed.
Lemma ebcdic_ascii_ok d : 0 <= d < 256 -> exists v, tab ebcdic_to_ascii d = Ok v.
Proof. intros D. apply tab_ok. exact D. Qed.
Ltac dred := cbv beta iota zeta delta [set_st set_sel set_req set_stk set_disc set_busy set_sense set_cmd set_cmd_done set_status set_data set_data_rdy set_data_end set_post set_feed_done set_rdr_col set_stk_sel set_pend or_sense or_status add_ev cancel_ev remove_cb cb_eqb existsb
  d_st d_sel d_req d_stk d_disc d_busy d_sense d_cmd d_cmd_done d_status d_data d_data_rdy d_data_end d_post d_feed_done d_feed d_stack0 d_stack1 d_rdr_card d_rdr_col d_rdr_full d_hop_cnt d_pch_card d_pch_col d_pch_full d_stk_sel d_rdy d_eof d_stop d_pend
  out_tags set_opri set_adri set_srvi set_stai set_reqi set_selo opri adri stai srvi reqi selo adro hldo cmdo srvo supo opro negb andb orb bind app].
Lemma seen_chan a s t bo bi r s1 t1 b1 : dev_step a s t bo bi = Ok (s1, t1, b1) ->
  seen a s (Chan t bo bi :: r) = (let* (s2, ds, sts) := seen a s1 r in
    Ok (s2, (if negb (srvi t) && srvi t1 then [Z.land b1 255] else []) ++ ds, (if negb (stai t) && stai t1 then [Z.land b1 255] else []) ++ sts)).
Proof. intros H. cbn [seen]. rewrite H. reflexivity. Qed.
Lemma seen_fire a s k r s1 : fire s k = Ok s1 -> seen a s (Fire k :: r) = seen a s1 r.
Proof. intros H. cbn [seen astep]. rewrite H. cbn [bind]. destruct (seen a s1 r) as [[[s2 ds] sts]| |]; reflexivity. Qed.

Lemma read_col_ok a c k s h d e : reading c k s -> 0 <= k < 80 -> tab c k = Ok h -> hol_to_ebcdic h = Ok d -> 0 <= d <= 256 -> (if d =? 256 then 0 else d) = e ->
  exists s', seen a s read_col = Ok (s', [e], []) /\ reading c (k + 1) s'.
Proof.
  intros (R1 & R2 & R3 & R4 & R5 & R6 & R7 & R8 & R9 & R10 & R11 & R12) K T D DR E.
  assert (EB : 0 <= e < 256) by (rewrite <- E; destruct (Z.eqb_spec d 256); lia).
  destruct (with_parity_ok e EB) as (y & W & _ & L & _).
  destruct s as [v0 v1 v2 v3 v4 v5 v6 v7 v8 v9 v10 v11 v12 v13 v14 v15 v16 v17 v18 v19 v20 v21 v22 v23 v24 v25 v26 v27 v28 v29].
  cbn [d_st d_sel d_busy d_cmd d_cmd_done d_data_rdy d_data_end d_status d_rdr_card d_rdr_col d_pend d_stk] in R1, R2, R3, R4, R5, R6, R7, R8, R9, R10, R11, R12. subst v0 v1 v3 v5 v7 v8 v9 v11 v12 v18 v19 v29.
  assert (F : exists s1, fire (mkD OPR true v2 false v4 true v6 2 false 0 v10 false false v13 v14 v15 v16 v17 c k v20 v21 v22 v23 v24 v25 v26 v27 v28 [CbRead]) CbRead = Ok s1 /\
    exists q, s1 = mkD OPR true true false v4 true q 2 false 0 e true false v13 v14 v15 v16 v17 c (k + 1) v20 v21 v22 v23 v24 v25 v26 v27 v28 [CbRead]).
  { unfold fire. dred. unfold read_cb. dred. rewrite (proj2 (Z.ltb_lt _ _) (proj2 K)). unfold col. rewrite T. dred. rewrite D. dred.
    destruct (d =? 256) eqn:D1.
    - dred. eexists. split; [reflexivity|]. subst e. eexists. reflexivity.
    - apply Z.eqb_neq in D1. destruct (ebcdic_ascii_ok d) as [v V]; [lia|]. rewrite V. dred. eexists. split; [reflexivity|]. subst e. eexists. reflexivity. }
  destruct F as (s1 & F & q & ->).
  unfold read_col. rewrite (seen_fire _ _ _ _ _ F).
  erewrite seen_chan by (unfold dev_step; dred; reflexivity).
  erewrite seen_chan by (unfold dev_step; dred; rewrite W; dred; reflexivity).
  erewrite seen_chan by (unfold dev_step; dred; rewrite W; dred; unfold bit; change (negb (Z.land 2 1 =? 0)) with false; cbv iota; dred; reflexivity).
  cbn [seen]. dred. rewrite L. eexists. split; [reflexivity|]. repeat split.
Qed.
Lemma tab_nth (c : card) k h r : skipn k c = h :: r -> tab c (Z.of_nat k) = Ok h /\ skipn (S k) c = r.
Proof.
  intros H. split.
  - unfold tab. rewrite (proj2 (Z.ltb_ge _ _)) by lia. rewrite Nat2Z.id. revert k H. induction c as [|x c IH]; intros [|k] H; cbn in *; try discriminate; [injection H as -> _; reflexivity|]. apply IH. exact H.
  - revert k H. induction c as [|x c IH]; intros [|k] H; cbn in *; try discriminate; [injection H as _ H; exact H|]. apply (IH k). exact H.
Qed.
Lemma read_cols a c : forall rest k s, reading c (Z.of_nat k) s -> skipn k c = rest -> (k + length rest = 80)%nat -> Forall (fun h => 0 <= h < 4096) rest ->
  exists s' es, seen a s (concat (repeat read_col (length rest))) = Ok (s', es, []) /\ reading c 80 s' /\ Forall2 column_byte rest es.
Proof.
  induction rest as [|h rest IH]; intros k s R SK L F; cbn [length] in *.
  - exists s, []. split; [reflexivity|]. split; [|constructor]. replace 80 with (Z.of_nat k) by lia. exact R.
  - inversion F; subst. destruct (tab_nth _ _ _ _ SK) as [T SK']. destruct (col_byte h) as (d & e & D & CB & DR & _ & E); [assumption|].
    destruct (read_col_ok a c _ s h d e R ltac:(lia) T D DR E) as (s1 & S1 & R1). replace (Z.of_nat k + 1) with (Z.of_nat (S k)) in R1 by lia.
    destruct (IH (S k) s1 R1 SK' ltac:(lia) ltac:(assumption)) as (s2 & es & S2 & R2 & FB). exists s2, (e :: es). split; [|split; [exact R2|constructor; assumption]].
    cbn [repeat concat]. rewrite seen_app, S1. cbn [bind]. rewrite S2. reflexivity.
Qed.

(** The device is ready to read: nothing in progress and a card under the brushes. *)
Definition ready (c : card) (s : dev) : Prop :=
  d_st s = IDLE /\ d_busy s = false /\ d_status s = 0 /\ d_stk s = false /\ d_rdy s = true /\ d_rdr_card s = c /\ d_rdr_col s = 0 /\ d_pend s = [] /\ d_sense s = 0.
Lemma cmd_read_flat v1 v2 v4 v7 v8 v10 v11 v12 v13 v14 v15 v16 v17 c v20 v21 v22 v23 v24 v25 v27 v28 :
  device_cmd (mkD STATUS v1 v2 false v4 false 0 v7 v8 0 v10 v11 v12 v13 v14 v15 v16 v17 c 0 v20 v21 v22 v23 v24 v25 true v27 v28 []) 2 =
  mkD STATUS v1 v2 false v4 true 0 2 false 0 v10 false false v13 false v15 v16 v17 c 0 v20 v21 v22 v23 v24 false true v27 v28 [CbRead].
Proof. reflexivity. Qed.
Lemma begin_ok a pa s c : ready c s -> with_parity (Z.land a 255) = Ok pa -> exists s', seen a s (begin_op pa 2) = Ok (s', [], [0]) /\ reading c 0 s'.
Proof.
  intros (R1 & R2 & R3 & R4 & R5 & R6 & R7 & R8 & R9) W.
  destruct (with_parity_ok _ (land_byte a)) as (y & W' & _ & L & _). rewrite W in W'. injection W' as <-.
  pose proof (parity_good _ _ (land_byte a) W) as BP.
  destruct s as [v0 v1 v2 v3 v4 v5 v6 v7 v8 v9 v10 v11 v12 v13 v14 v15 v16 v17 v18 v19 v20 v21 v22 v23 v24 v25 v26 v27 v28 v29].
  cbn [d_st d_sel d_busy d_cmd d_cmd_done d_data_rdy d_data_end d_status d_rdr_card d_rdr_col d_pend d_stk d_sense d_rdy] in R1, R2, R3, R4, R5, R6, R7, R8, R9. subst v0 v3 v5 v6 v9 v18 v19 v26 v29.
  unfold begin_op.
  assert (B2 : bad_parity 2 = Ok false) by reflexivity. assert (W0 : with_parity 0 = Ok 256) by reflexivity.
  destruct v2.
  all: erewrite seen_chan by (unfold dev_step; dred; rewrite L, Z.eqb_refl, BP; dred; rewrite W; dred; reflexivity).
  all: erewrite seen_chan by (unfold dev_step; dred; rewrite W; dred; reflexivity).
  all: erewrite seen_chan by (unfold dev_step; dred; rewrite W; dred; rewrite B2; dred; change (0 =? 0) with true; dred; change (Z.land 2 255) with 2; rewrite cmd_read_flat; reflexivity).
  all: erewrite seen_chan by (unfold dev_step; dred; rewrite W0; dred; reflexivity).
  all: erewrite seen_chan by (unfold dev_step; dred; rewrite W0; dred; change (2 =? 0) with false; dred; reflexivity).
  all: cbn [seen]; dred; eexists; split; [reflexivity|repeat split].
Qed.
Lemma end_ok a s c : reading c 80 s -> exists s', seen a s end_op = Ok (s', [], [SNS_CHNEND]) /\ d_pend s' = [CbFeed].
Proof.
  intros (R1 & R2 & R3 & R4 & R5 & R6 & R7 & R8 & R9 & R10 & R11 & R12).
  destruct s as [v0 v1 v2 v3 v4 v5 v6 v7 v8 v9 v10 v11 v12 v13 v14 v15 v16 v17 v18 v19 v20 v21 v22 v23 v24 v25 v26 v27 v28 v29].
  cbn [d_st d_sel d_busy d_cmd d_cmd_done d_data_rdy d_data_end d_status d_rdr_card d_rdr_col d_pend d_stk] in R1, R2, R3, R4, R5, R6, R7, R8, R9, R10, R11, R12. subst v0 v1 v3 v5 v7 v8 v9 v11 v12 v18 v19 v29.
  unfold end_op. erewrite seen_fire by (unfold fire; dred; unfold read_cb; dred; change (80 <? 80) with false; dred; reflexivity).
  assert (W8 : with_parity (Z.lor 0 SNS_CHNEND) = Ok 8) by reflexivity.
  erewrite seen_chan by (unfold dev_step; dred; change (2 =? 4) with false; dred; reflexivity).
  erewrite seen_chan by (unfold dev_step; dred; rewrite W8; dred; reflexivity).
  cbn [seen]. dred. eexists. split; reflexivity.
Qed.
Lemma read_card_seen a pa s c : ready c s -> is_card c -> with_parity (Z.land a 255) = Ok pa ->
  exists s' es, seen a s (begin_op pa 2 ++ concat (repeat read_col 80) ++ end_op) = Ok (s', es, [0; SNS_CHNEND]) /\ Forall2 column_byte c es.
Proof.
  intros R [L F] W. destruct (begin_ok a pa s c R W) as (s1 & S1 & R1). destruct (read_cols a c c 0 s1 R1 eq_refl L F) as (s2 & es & S2 & R2 & B).
  destruct (end_ok a s2 c R2) as (s3 & S3 & _). rewrite L in S2. exists s3, es. split; [|exact B].
  rewrite seen_app, S1. cbn [bind]. rewrite seen_app, S2. cbn [bind]. rewrite S3. cbn [bind app]. rewrite app_nil_r. reflexivity.
Qed.

Lemma conn_link a : forall l s t s' t', conn True a s t -> link a s t l = Ok (s', t') -> conn True a s' t'.
Proof.
  induction l as [|x l IH]; intros s t s' t' C H; cbn [link] in H; [injection H as <- <-; exact C|]. destruct x as [t1 bo bi|k|k].
  - destruct (dev_step a s (carry t t1) bo bi) as [[[s1 t2] b]| |] eqn:E; cbn [bind] in H; try discriminate H. apply (IH s1 t2); [|exact H].
    eapply conn_chan; [exact C| |left; exact I|exact E]. reflexivity.
  - destruct (fire s k) as [s1| |] eqn:E; cbn [bind] in H; try discriminate H. apply (IH s1 t); [|exact H]. eapply conn_fire; eassumption.
  - destruct (do_key s k) as [s1| |] eqn:E; cbn [bind] in H; try discriminate H. apply (IH s1 t); [|exact H]. eapply conn_key; eassumption.
Qed.
