(** The card reader and punch: selection and parity. *)
From Verif Require Export R1442.Spec.

Ltac ifs H := repeat match type of H with context [if ?b then _ else _] => let E := fresh "E" in destruct b eqn:E end.
Ltac okinv H := match type of H with
  | Ok (_, _, _) = Ok (_, _, _) => injection H as <- <- <-
  | Ok _ = Ok _ => injection H as <-
  | UB = Ok _ => discriminate H | NoFuel = Ok _ => discriminate H end.
Ltac binds H := repeat match type of H with context [bind ?r _] => let E := fresh "B" in destruct r eqn:E; cbn [bind] in H; try discriminate H end.
Ltac step_inv H := repeat (first [progress ifs H | progress binds H]); okinv H.

Lemma run_app a l1 : forall s l2, run a s (l1 ++ l2) = (let* s1 := run a s l1 in run a s1 l2).
Proof. induction l1 as [|x l1 IH]; intros s l2; cbn [app run]; [reflexivity|]. destruct (astep a s x); cbn [bind]; try reflexivity. apply IH. Qed.

Ltac nod := unfold drives; cbn [set_opri set_adri set_srvi set_stai set_reqi set_selo opri adri stai srvi reqi selo adro];
  intros [[? ?]|[[? ?]|[[? ?]|[[? ?]|[D|D]]]]]; try congruence; try (apply D; congruence).
Lemma idle_step a s t bo bi s' t' bi' : d_st s = IDLE -> dev_step a s t bo bi = Ok (s', t', bi') ->
  (selecting a s t bo /\ ~ resetting t) \/ (d_st s' = IDLE /\ ~ drives t bi t' bi').
Proof.
  intros ST H. unfold dev_step in H. rewrite ST in H.
  destruct (negb (opro t) && negb (supo t)) eqn:R.
  { okinv H. right. split; [reflexivity|]. destruct (d_sel s); nod. }
  assert (NR : ~ resetting t) by (intros [R1 R2]; rewrite R1, R2 in R; discriminate).
  destruct (negb (opro t)) eqn:O1; [okinv H; right; split; [exact ST|nod]|].
  destruct (opri t) eqn:O2; [okinv H; right; split; [exact ST|destruct (d_req _ || d_stk _); nod]|].
  cbn [set_disc d_req d_stk] in H.
  set (t1 := if d_req s || d_stk s then _ else t) in H.
  assert (T1 : adro t1 = adro t /\ selo t1 = selo t /\ supo t1 = supo t /\ opri t1 = opri t /\ adri t1 = adri t /\ stai t1 = stai t /\ srvi t1 = srvi t)
    by (subst t1; destruct (d_req s || d_stk s); cbn; repeat split).
  clearbody t1. destruct T1 as (A1 & A2 & A3 & A4 & A5 & A6 & A7). rewrite A1, A2, A3 in H.
  destruct (selo t) eqn:S1; [|okinv H; right; split; [exact ST|nod]].
  destruct (adro t) eqn:S2.
  - destruct (Z.land bo 255 =? Z.land a 255) eqn:S3; [|okinv H; right; split; [exact ST|nod]].
    left. clear H. split; [|exact NR]. unfold selecting. rewrite S1, S2, O2. destruct (opro t); [|discriminate]. repeat split. left. split; [reflexivity|apply Z.eqb_eq; exact S3].
  - destruct (negb (supo t) && (d_req s || d_stk s)) eqn:S3; [|okinv H; right; split; [exact ST|nod]].
    left. clear H. split; [|exact NR]. unfold selecting. rewrite S1, S2, O2. destruct (opro t); [|discriminate]. repeat split. right.
    apply andb_prop in S3. destruct S3 as [S3 S4]. split; [reflexivity|]. split; [destruct (supo t); [discriminate S3|reflexivity]|apply orb_prop; exact S4].
Qed.

Lemma reset_idle a s t bo bi r : resetting t -> dev_step a s t bo bi = Ok r -> d_st (fst (fst r)) = IDLE.
Proof. intros [R1 R2] H. unfold dev_step in H. rewrite R1, R2 in H. cbn [negb andb] in H. injection H as <-. reflexivity. Qed.

Lemma feed_st s s' : do_feed s = Ok s' -> d_st s' = d_st s.
Proof.
  intros H. unfold do_feed in H. destruct (_ && _) in H; [injection H as <-; reflexivity|].
  match type of H with bind ?r _ = _ => destruct r as [s1| |] eqn:E1 end; cbn [bind] in H; try discriminate H.
  assert (X1 : d_st s1 = d_st s).
  { destruct (d_pch_full s); [|injection E1 as <-; reflexivity]. destruct (stack_card _ _) as [c| |]; cbn [bind] in E1; try discriminate E1. injection E1 as <-. destruct (d_stk_sel s); reflexivity. }
  clear E1. rewrite <- X1. clear X1. set (s2 := if d_rdr_full s1 then _ else s1) in H. assert (X2 : d_st s2 = d_st s1) by (subst s2; destruct (d_rdr_full s1); reflexivity).
  clearbody s2. rewrite <- X2. clear X2 s1 s. match type of H with bind ?r _ = _ => destruct r as [s3| |] eqn:E3 end; cbn [bind] in H; try discriminate H.
  assert (X3 : d_st s3 = d_st s2).
  { destruct (negb (d_stop s2)); [|injection E3 as <-; reflexivity]. destruct (read_card (d_feed s2)) as [[f [c|]]| |]; cbn [bind fst snd] in E3; try discriminate E3; injection E3 as <-;
      match goal with |- d_st (if ?b then _ else _) = _ => destruct b end; reflexivity. }
  rewrite <- X3. injection H as <-. match goal with |- d_st (if ?b then _ else _) = _ => destruct b end; reflexivity.
Qed.
Lemma key_st s k s' : do_key s k = Ok s' -> d_st s' = d_st s.
Proof.
  intros H. unfold do_key in H. destruct k; cbn [bind] in H.
  2:{ destruct (d_st s) eqn:ST; cbn [bind] in H; try (injection H as <-; exact ST).
      destruct (negb (d_rdr_full s)) eqn:F.
      - destruct (do_feed s) as [s1| |] eqn:E; cbn [bind] in H; try discriminate H. apply feed_st in E. injection H as <-. rewrite <- ST, <- E. destruct (d_rdr_full s1); reflexivity.
      - cbn [bind] in H. injection H as <-. rewrite <- ST. destruct (d_rdr_full s); reflexivity. }
  2:{ destruct (do_feed s) as [s1| |] eqn:E; cbn [bind] in H; try discriminate H. apply feed_st in E. injection H as <-. exact E. }
  all: repeat match type of H with context [bind (bind ?r _) _] => destruct r; cbn [bind] in H; try discriminate H end; injection H as <-; reflexivity.
Qed.
Lemma fire_st s k s' : fire s k = Ok s' -> d_st s' = d_st s.
Proof.
  intros H. unfold fire in H. destruct (existsb _ _); [|injection H as <-; reflexivity].
  assert (C : d_st (cancel_ev k s) = d_st s) by reflexivity. revert C H. generalize (cancel_ev k s). intros s1 C H. rewrite <- C. clear C.
  destruct k.
  - unfold read_cb in H. repeat (match type of H with context [if ?b then _ else _] => destruct b | context [bind (bind ?r _) _] => destruct r | context [bind ?r _] => destruct r end; cbn [bind] in H; try discriminate H); injection H as <-; reflexivity.
  - unfold write_cb in H. repeat (match type of H with context [if ?b then _ else _] => destruct b | context [bind (bind ?r _) _] => destruct r | context [bind ?r _] => destruct r end; cbn [bind] in H; try discriminate H); injection H as <-; reflexivity.
  - unfold feed_cb in H. cbv zeta in H. assert (C : d_st (feed_flags s1) = d_st s1) by reflexivity. rewrite <- C. clear C. revert H. generalize (feed_flags s1). clear s1 s. intros s1 H.
    destruct (_ && _).
    + apply feed_st in H. exact H.
    + destruct (do_feed s1) as [s2| |] eqn:E; cbn [bind] in H; try discriminate H. apply feed_st in E. injection H as <-. rewrite <- E. destruct (d_sense s2 =? 0); reflexivity.
Qed.

Lemma owned_when_active a s0 : d_st s0 = IDLE -> forall l s, run a s0 l = Ok s -> d_st s <> IDLE -> owned a s0 l.
Proof.
  intros I0. induction l as [|x l IH] using rev_ind; intros s R N; [cbn in R; injection R as <-; congruence|].
  rewrite run_app in R. destruct (run a s0 l) as [s1| |] eqn:R1; cbn [bind run] in R; try discriminate.
  destruct (astep a s1 x) as [s2| |] eqn:ST; cbn [bind] in R; try discriminate. injection R as ->.
  assert (EXT : d_st s1 <> IDLE -> (forall t' bo' bi', x = Chan t' bo' bi' -> ~ resetting t') -> owned a s0 (l ++ [x])).
  { intros N1 NR. destruct (IH s1 eq_refl N1) as (pre & t & bo & bi & post & q & -> & Q & SEL & A & B).
    exists pre, t, bo, bi, (post ++ [x]), q. split; [rewrite <- app_assoc; reflexivity|]. split; [exact Q|]. split; [exact SEL|]. split.
    - intros t' bo' bi' IN. apply in_app_or in IN. destruct IN as [IN|[IN|[]]]; [apply (A _ _ _ IN)|apply (NR _ _ _ IN)].
    - intros p q' s' E RR. destruct q' as [|y q' _] using rev_ind.
      + rewrite app_nil_r in E. subst p. assert (X : run a s0 ((pre ++ Chan t bo bi :: post) ++ [x]) = Ok s) by (rewrite run_app, R1; cbn [bind run]; rewrite ST; reflexivity).
        rewrite <- app_assoc in X. cbn [app] in X. rewrite X in RR. injection RR as <-. exact N.
      + rewrite app_assoc in E. apply app_inj_tail in E. destruct E as [E _]. apply (B p q' s' E RR). }
  destruct x as [t bo bi|k|k]; cbn [astep] in ST.
  - destruct (dev_step a s1 t bo bi) as [[[s2 t'] bi']| |] eqn:DS; cbn [bind fst] in ST; try discriminate. injection ST as ->.
    destruct (d_st s1) eqn:D1.
    { destruct (idle_step _ _ _ _ _ _ _ _ D1 DS) as [[SEL NR]|[X _]]; [|congruence].
      exists l, t, bo, bi, [], s1. split; [reflexivity|]. split; [exact R1|]. split; [exact SEL|]. split; [intros ? ? ? []|].
      intros p q s' E RR. symmetry in E. apply app_eq_nil in E. destruct E as [-> ->]. rewrite run_app, R1 in RR. cbn [bind run astep] in RR. rewrite DS in RR. cbn in RR. injection RR as <-. exact N. }
    all: apply EXT; [congruence|]; intros t2 bo2 bi2 E RS; injection E as <- <- <-; apply (reset_idle _ _ _ _ _ _ RS) in DS; cbn in DS; congruence.
  - apply fire_st in ST. apply EXT; [congruence|discriminate].
  - apply key_st in ST. apply EXT; [congruence|discriminate].
Qed.

(** *** Parity *)
Definition regs_ok (s : dev) : Prop :=
  0 <= d_status s < 256 /\ 0 <= d_sense s < 256 /\ 0 <= d_data s < 256 /\ Z.odd (d_cmd s) = false.
Lemma lor_byte x m : 0 <= x < 256 -> 0 <= m < 256 -> 0 <= Z.lor x m < 256.
Proof.
  intros X M. split; [apply Z.lor_nonneg; lia|]. destruct (Z.eq_dec (Z.lor x m) 0) as [->|N]; [lia|]. apply Z.log2_lt_cancel. change (Z.log2 256) with 8.
  rewrite Z.log2_lor by lia. assert (Z.log2 x < 8) by (destruct (Z.eq_dec x 0) as [->|]; [reflexivity|apply Z.log2_lt_pow2; lia]).
  assert (Z.log2 m < 8) by (destruct (Z.eq_dec m 0) as [->|]; [reflexivity|apply Z.log2_lt_pow2; lia]). lia.
Qed.
Lemma land_le x m : 0 <= x < 256 -> 0 <= Z.land x m < 256.
Proof.
  intros X. assert (0 <= Z.land x m) by (apply Z.land_nonneg; lia). split; [assumption|]. replace (Z.land x m) with (Z.land (Z.land x m) 255); [apply land_byte|].
  rewrite <- Z.land_assoc, (Z.land_comm m), Z.land_assoc. change 255 with (Z.ones 8). rewrite (Z.land_ones x 8) by lia. rewrite Z.mod_small by (cbn; lia). reflexivity.
Qed.
Lemma rg_st (v : dstate) s : regs_ok s -> regs_ok (set_st v s).
Proof. exact (fun H => H). Qed.
Lemma rg_sel (v : bool) s : regs_ok s -> regs_ok (set_sel v s).
Proof. exact (fun H => H). Qed.
Lemma rg_req (v : bool) s : regs_ok s -> regs_ok (set_req v s).
Proof. exact (fun H => H). Qed.
Lemma rg_stk (v : bool) s : regs_ok s -> regs_ok (set_stk v s).
Proof. exact (fun H => H). Qed.
Lemma rg_disc (v : bool) s : regs_ok s -> regs_ok (set_disc v s).
Proof. exact (fun H => H). Qed.
Lemma rg_busy (v : bool) s : regs_ok s -> regs_ok (set_busy v s).
Proof. exact (fun H => H). Qed.
Lemma rg_cmd_done (v : bool) s : regs_ok s -> regs_ok (set_cmd_done v s).
Proof. exact (fun H => H). Qed.
Lemma rg_data_rdy (v : bool) s : regs_ok s -> regs_ok (set_data_rdy v s).
Proof. exact (fun H => H). Qed.
Lemma rg_data_end (v : bool) s : regs_ok s -> regs_ok (set_data_end v s).
Proof. exact (fun H => H). Qed.
Lemma rg_post (v : bool) s : regs_ok s -> regs_ok (set_post v s).
Proof. exact (fun H => H). Qed.
Lemma rg_feed_done (v : bool) s : regs_ok s -> regs_ok (set_feed_done v s).
Proof. exact (fun H => H). Qed.
Lemma rg_feed (v : Card.Model.ctx) s : regs_ok s -> regs_ok (set_feed v s).
Proof. exact (fun H => H). Qed.
Lemma rg_stack0 (v : Card.Model.ctx) s : regs_ok s -> regs_ok (set_stack0 v s).
Proof. exact (fun H => H). Qed.
Lemma rg_stack1 (v : Card.Model.ctx) s : regs_ok s -> regs_ok (set_stack1 v s).
Proof. exact (fun H => H). Qed.
Lemma rg_rdr_card (v : card) s : regs_ok s -> regs_ok (set_rdr_card v s).
Proof. exact (fun H => H). Qed.
Lemma rg_rdr_col (v : Z) s : regs_ok s -> regs_ok (set_rdr_col v s).
Proof. exact (fun H => H). Qed.
Lemma rg_rdr_full (v : bool) s : regs_ok s -> regs_ok (set_rdr_full v s).
Proof. exact (fun H => H). Qed.
Lemma rg_hop_cnt (v : Z) s : regs_ok s -> regs_ok (set_hop_cnt v s).
Proof. exact (fun H => H). Qed.
Lemma rg_pch_card (v : card) s : regs_ok s -> regs_ok (set_pch_card v s).
Proof. exact (fun H => H). Qed.
Lemma rg_pch_col (v : Z) s : regs_ok s -> regs_ok (set_pch_col v s).
Proof. exact (fun H => H). Qed.
Lemma rg_pch_full (v : bool) s : regs_ok s -> regs_ok (set_pch_full v s).
Proof. exact (fun H => H). Qed.
Lemma rg_stk_sel (v : bool) s : regs_ok s -> regs_ok (set_stk_sel v s).
Proof. exact (fun H => H). Qed.
Lemma rg_rdy (v : bool) s : regs_ok s -> regs_ok (set_rdy v s).
Proof. exact (fun H => H). Qed.
Lemma rg_eof (v : bool) s : regs_ok s -> regs_ok (set_eof v s).
Proof. exact (fun H => H). Qed.
Lemma rg_stop (v : bool) s : regs_ok s -> regs_ok (set_stop v s).
Proof. exact (fun H => H). Qed.
Lemma rg_pend v s : regs_ok s -> regs_ok (set_pend v s).
Proof. exact (fun H => H). Qed.
Lemma rg_add k s : regs_ok s -> regs_ok (add_ev k s).
Proof. exact (fun H => H). Qed.
Lemma rg_cancel k s : regs_ok s -> regs_ok (cancel_ev k s).
Proof. exact (fun H => H). Qed.
Lemma rg_status v s : 0 <= v < 256 -> regs_ok s -> regs_ok (set_status v s).
Proof. intros V (H1 & H2 & H3 & H4). split; [exact V|]. split; [exact H2|]. split; [exact H3|exact H4]. Qed.
Lemma rg_or_status v s : 0 <= v < 256 -> regs_ok s -> regs_ok (or_status v s).
Proof. intros V R. apply rg_status; [apply lor_byte; [apply R|exact V]|exact R]. Qed.
Lemma rg_sense v s : 0 <= v < 256 -> regs_ok s -> regs_ok (set_sense v s).
Proof. intros V (H1 & H2 & H3 & H4). split; [exact H1|]. split; [exact V|]. split; [exact H3|exact H4]. Qed.
Lemma rg_or_sense v s : 0 <= v < 256 -> regs_ok s -> regs_ok (or_sense v s).
Proof. intros V R. apply rg_sense; [apply lor_byte; [apply R|exact V]|exact R]. Qed.
Lemma rg_data v s : 0 <= v < 256 -> regs_ok s -> regs_ok (set_data v s).
Proof. intros V (H1 & H2 & H3 & H4). split; [exact H1|]. split; [exact H2|]. split; [exact V|exact H4]. Qed.
Lemma rg_cmd v s : Z.odd v = false -> regs_ok s -> regs_ok (set_cmd v s).
Proof. intros V (H1 & H2 & H3 & H4). split; [exact H1|]. split; [exact H2|]. split; [exact H3|exact V]. Qed.
Lemma regs_sense_low s m : regs_ok s -> regs_ok (set_sense (Z.land (d_sense s) m) s).
Proof. intros R. apply rg_sense; [apply land_le, R|exact R]. Qed.
Ltac sm := cbv; split; congruence.
Ltac rg := repeat match goal with
  | H : regs_ok ?x |- regs_ok ?x => exact H
  | |- regs_ok ?x => match x with
    | set_st _ _ => apply rg_st | set_sel _ _ => apply rg_sel | set_req _ _ => apply rg_req | set_stk _ _ => apply rg_stk | set_disc _ _ => apply rg_disc | set_busy _ _ => apply rg_busy | set_cmd_done _ _ => apply rg_cmd_done | set_data_rdy _ _ => apply rg_data_rdy | set_data_end _ _ => apply rg_data_end | set_post _ _ => apply rg_post | set_feed_done _ _ => apply rg_feed_done | set_feed _ _ => apply rg_feed | set_stack0 _ _ => apply rg_stack0 | set_stack1 _ _ => apply rg_stack1 | set_rdr_card _ _ => apply rg_rdr_card | set_rdr_col _ _ => apply rg_rdr_col | set_rdr_full _ _ => apply rg_rdr_full | set_hop_cnt _ _ => apply rg_hop_cnt | set_pch_card _ _ => apply rg_pch_card | set_pch_col _ _ => apply rg_pch_col | set_pch_full _ _ => apply rg_pch_full | set_stk_sel _ _ => apply rg_stk_sel | set_rdy _ _ => apply rg_rdy | set_eof _ _ => apply rg_eof | set_stop _ _ => apply rg_stop | set_pend _ _ => apply rg_pend
    | add_ev _ _ => apply rg_add | cancel_ev _ _ => apply rg_cancel
    | or_status _ _ => apply rg_or_status; [sm|] | or_sense _ _ => apply rg_or_sense; [sm|]
    | set_sense (Z.land (d_sense ?y) _) ?y => apply regs_sense_low
    | set_sense (Z.land (d_sense ?y) _) _ => apply rg_sense; [apply land_le; match goal with H : regs_ok y |- _ => apply H end|]
    | set_status _ _ => apply rg_status; [sm|] | set_sense _ _ => apply rg_sense; [sm|] | set_cmd 0 _ => apply rg_cmd; [reflexivity|]
    | if ?b then _ else _ => destruct b
    end end.

Lemma h2e_range h d : hol_to_ebcdic h = Ok d -> 0 <= d <= 256.
Proof.
  unfold hol_to_ebcdic, tab. destruct (h <? 0); [discriminate|]. destruct (nth_error hol_to_ebcdic_table (Z.to_nat h)) as [x|] eqn:E; [|discriminate]. intros H. injection H as ->.
  assert (F : forallb (fun x => (0 <=? x) && (x <=? 256)) hol_to_ebcdic_table = true) by (vm_compute; reflexivity).
  rewrite forallb_forall in F. specialize (F d (nth_error_In _ _ E)). lia.
Qed.
Lemma regs_cmd_end s : regs_ok s -> regs_ok (cmd_end s).
Proof. intros R. unfold cmd_end. rg. Qed.
Lemma regs_stop s : regs_ok s -> regs_ok (device_stop s).
Proof. intros R. unfold device_stop. rg. Qed.
Lemma regs_cmd s c : regs_ok s -> 0 <= c < 256 -> Z.odd c = false -> regs_ok (device_cmd s c).
Proof.
  intros R C O. unfold device_cmd. cbv zeta. set (s1 := set_status 0 _). assert (R1 : regs_ok s1) by (subst s1; rg). clearbody s1. 
  repeat match goal with |- regs_ok (if ?b then _ else _) => destruct b end; try apply regs_cmd_end; repeat first [progress rg | match goal with |- regs_ok (set_cmd _ _) => apply rg_cmd; [exact O|] | |- regs_ok (set_data _ _) => apply rg_data; [apply R1|] end].
Qed.
Lemma odd_land bo : Z.odd bo = false -> Z.odd (Z.land bo 255) = false.
Proof. intros O. rewrite <- Z.bit0_odd, Z.land_spec, Z.bit0_odd, O. reflexivity. Qed.
Lemma parity_step x : 0 <= x < 256 -> exists y, with_parity x = Ok y /\ odd9 y.
Proof. intros X. destruct (with_parity_ok x X) as (y & E & O & _ & B). exists y. split; [exact E|split; assumption]. Qed.

Lemma chan_regs a s t bo bi : regs_ok s -> (cmdo t = true -> Z.odd bo = false) ->
  exists s' t' bi', dev_step a s t bo bi = Ok (s', t', bi') /\ regs_ok s' /\ (bi' = bi \/ odd9 bi').
Proof.
  intros R C. destruct (parity_step (Z.land a 255) (land_byte a)) as (pa & PA & OA).
  destruct (parity_step SNS_BSY ltac:(sm)) as (pb & PB & OB).
  destruct (parity_step (d_status s) ltac:(apply R)) as (ps & PS & OS). destruct (parity_step (d_data s) ltac:(apply R)) as (pd & PD & OD).
  destruct (bad_parity_ok bo) as (bad & BAD).
  assert (DC : cmdo t = true -> forall x, regs_ok x -> regs_ok (device_cmd x (Z.land bo 255))).
  { intros CT x RX. apply regs_cmd; [exact RX|apply land_byte|apply odd_land, C, CT]. }
  assert (FIN : forall s' (t' : tags) (bi' : Z), regs_ok s' -> bi' = bi \/ odd9 bi' -> exists s2 t2 b2, Ok (s', t', bi') = Ok (s2, t2, b2) /\ regs_ok s2 /\ (b2 = bi \/ odd9 b2))
    by (intros; do 3 eexists; split; [reflexivity|split; assumption]).
  unfold dev_step. cbv zeta.
  destruct (negb (opro t) && negb (supo t)); [apply FIN; [rg|left; reflexivity]|].
  assert (NB : bit (d_cmd (set_data_rdy false s)) 1 = false).
  { unfold bit. cbn [d_cmd set_data_rdy]. change 1 with (Z.ones 1). rewrite Z.land_ones by lia. change (2 ^ 1) with 2. rewrite Zmod_odd. destruct R as (_ & _ & _ & ->). reflexivity. }
  destruct (d_st s);
    repeat match goal with |- exists s' t' bi', ?r = _ /\ _ => match r with
      | bind (with_parity (Z.land a 255)) _ => rewrite PA; cbn [bind]
      | bind (with_parity SNS_BSY) _ => rewrite PB; cbn [bind]
      | bind (with_parity (d_status s)) _ => rewrite PS; cbn [bind]
      | bind (with_parity (d_data s)) _ => rewrite PD; cbn [bind]
      | bind (bad_parity bo) _ => rewrite BAD; cbn [bind]
      | bind (if bit (d_cmd (set_data_rdy false s)) 1 then _ else _) _ => rewrite NB; cbn [bind]
      | if ?b then _ else _ => let E := fresh "E" in destruct b eqn:E
      end end;
    (apply FIN; [rg|first [left; reflexivity|right; assumption]]).
  - apply DC; [|rg]. match goal with H : cmdo (set_selo false t) = true |- _ => exact H end.
  - apply regs_stop. rg.
Qed.

Lemma feed_regs s s' : do_feed s = Ok s' -> regs_ok s -> regs_ok s'.
Proof.
  intros H R. unfold do_feed in H. destruct (_ && _) in H; [injection H as <-; rg|].
  match type of H with bind ?r _ = _ => destruct r as [s1| |] eqn:E1 end; cbn [bind] in H; try discriminate H.
  assert (X1 : regs_ok s1).
  { destruct (d_pch_full s); [|injection E1 as <-; exact R]. destruct (stack_card _ _) as [c| |]; cbn [bind] in E1; try discriminate E1. injection E1 as <-. rg. }
  clear E1 R s. set (s2 := if d_rdr_full s1 then _ else s1) in H. assert (X2 : regs_ok s2) by (subst s2; rg).
  clearbody s2. clear X1 s1. match type of H with bind ?r _ = _ => destruct r as [s3| |] eqn:E3 end; cbn [bind] in H; try discriminate H.
  assert (X3 : regs_ok s3).
  { destruct (negb (d_stop s2)); [|injection E3 as <-; rg]. destruct (read_card (d_feed s2)) as [[f [c|]]| |]; cbn [bind fst snd] in E3; try discriminate E3; injection E3 as <-; rg. }
  clear E3 X2 s2. injection H as <-. rg.
Qed.
Lemma key_regs s k s' : do_key s k = Ok s' -> regs_ok s -> regs_ok s'.
Proof.
  intros H R. unfold do_key in H. destruct k; cbn [bind] in H.
  2:{ destruct (d_st s) eqn:ST; cbn [bind] in H; try (injection H as <-; rg).
      destruct (negb (d_rdr_full s)) eqn:F.
      - destruct (do_feed s) as [s1| |] eqn:E; cbn [bind] in H; try discriminate H. apply feed_regs in E; [|exact R]. injection H as <-. rg.
      - cbn [bind] in H. injection H as <-. rg. }
  2:{ destruct (do_feed s) as [s1| |] eqn:E; cbn [bind] in H; try discriminate H. apply feed_regs in E; [|exact R]. injection H as <-. rg. }
  all: repeat match type of H with context [bind (bind ?r _) _] => destruct r; cbn [bind] in H; try discriminate H end; injection H as <-; rg.
Qed.
Lemma fire_regs s k s' : fire s k = Ok s' -> regs_ok s -> regs_ok s'.
Proof.
  intros H R0. unfold fire in H. destruct (existsb _ _); [|injection H as <-; exact R0].
  assert (R : regs_ok (cancel_ev k s)) by rg. revert R H. generalize (cancel_ev k s). clear R0 s. intros s R H.
  destruct k.
  - unfold read_cb in H. destruct (d_data_end s); [injection H as <-; rg|]. destruct (negb (d_data_rdy s)); [|injection H as <-; rg].
    destruct (d_rdr_col s <? 80); [|injection H as <-; rg].
    destruct (col _ _) as [h| |]; cbn [bind] in H; try discriminate H. destruct (hol_to_ebcdic h) as [d| |] eqn:D; cbn [bind] in H; try discriminate H.
    apply h2e_range in D. destruct (d =? 256) eqn:D1.
    + cbn [bind] in H. injection H as <-. rg.
      destruct R as (R1 & R2 & R3 & R4). split; [exact R1|]. split; [exact R2|]. split; [sm|exact R4].
    + apply Z.eqb_neq in D1. destruct (tab ebcdic_to_ascii d) as [x| |]; cbn [bind] in H; try discriminate H. injection H as <-. rg. apply rg_data; [|exact R]. clear -D D1. lia.
  - unfold write_cb in H. repeat (match type of H with context [if ?b then _ else _] => destruct b | context [bind (bind ?r _) _] => destruct r | context [bind ?r _] => destruct r end; cbn [bind] in H; try discriminate H); injection H as <-; rg.
  - unfold feed_cb in H. cbv zeta in H. assert (R1 : regs_ok (feed_flags s)) by (unfold feed_flags; rg). revert R1 H. generalize (feed_flags s). clear s R. intros s R H.
    destruct (_ && _).
    + apply feed_regs in H; [exact H|rg].
    + destruct (do_feed s) as [s2| |] eqn:E; cbn [bind] in H; try discriminate H. apply feed_regs in E; [|exact R]. injection H as <-. rg.
Qed.
