(** The tape control: the tags it raises. *)
From Verif Require Export T2415.Proofs3.

Definition no16 (s : dev) : Prop := bit (d_cmd s) 16 = false.
Definition ok16 (r : res dev) : Prop := match r with Ok s => no16 s | _ => True end.
Lemma ok16_bind r k : ok16 r -> (forall s, no16 s -> ok16 (k s)) -> ok16 (bind r k).
Proof. destruct r; cbn; auto. Qed.
Lemma ok16_any A (r : res A) k : (forall x, ok16 (k x)) -> ok16 (bind r k).
Proof. destruct r; cbn; auto. Qed.
Lemma ok16_let X (B : dev -> res dev) : no16 X -> (forall s, no16 s -> ok16 (B s)) -> ok16 (B X).
Proof. auto. Qed.
Ltac nn := repeat match goal with
  | H : no16 ?x |- no16 ?x => exact H
  | |- no16 ?x => match x with
    | set_cmd 0 _ => reflexivity
    | set_st _ ?y => change (no16 y) | set_sel _ ?y => change (no16 y) | set_req _ ?y => change (no16 y) | set_stk _ ?y => change (no16 y) | set_sense0 _ ?y => change (no16 y) | set_sense1 _ ?y => change (no16 y) | set_sense2 _ ?y => change (no16 y) | set_sense3 _ ?y => change (no16 y) | set_scnt _ ?y => change (no16 y) | set_busy _ ?y => change (no16 y) | set_chain _ ?y => change (no16 y) | set_cmd_done _ ?y => change (no16 y) | set_status _ ?y => change (no16 y) | set_data _ ?y => change (no16 y) | set_cbuf _ ?y => change (no16 y) | set_data_rdy _ ?y => change (no16 y) | set_data_end _ ?y => change (no16 y) | set_post _ ?y => change (no16 y) | set_cbusy _ ?y => change (no16 y) | set_cur _ ?y => change (no16 y) | set_statu _ ?y => change (no16 y) | set_scan _ ?y => change (no16 y) | set_rew _ ?y => change (no16 y) | set_run _ ?y => change (no16 y) | set_rdyf _ ?y => change (no16 y) | set_mrk _ ?y => change (no16 y) | set_tapes _ ?y => change (no16 y) | set_cc _ ?y => change (no16 y) | set_mode7 _ ?y => change (no16 y) | set_mode9 _ ?y => change (no16 y) | set_pend _ ?y => change (no16 y)
    | or_status _ ?y => change (no16 y) | or_sense _ ?y => change (no16 y) | clear_sense ?y => change (no16 y) | start_ev ?y => change (no16 y)
    | add_ev _ _ ?y => change (no16 y) | set_tape _ _ ?y => change (no16 y)
    | if ?b then _ else _ => destruct b
    | (let _ := _ in _) => cbv zeta
    | match ?r with SErr => _ | _ => _ end => destruct r
    | match ?r with Some _ => _ | _ => _ end => destruct r
    end end.
Ltac n16 := match goal with |- ok16 (let s := ?X in @?B s) =>
  let T := type of X in unify T dev;
  let I := fresh "I" in let s' := fresh "s" in
  refine (ok16_let X B _ _); [nn|intros s' I; cbv beta] end.
Ltac l16 := match goal with |- ok16 (let c := ?X in @?B c) => change (ok16 (B X)); generalize X; intros ?; cbv beta end.
Ltac s16 := repeat first [n16 | l16
  | match goal with
    | |- ok16 (Ok _) => cbn [ok16]; nn
    | |- ok16 (if ?b then _ else _) => destruct b
    | |- ok16 (match ?r with SErr => _ | _ => _ end) => destruct r
    | |- ok16 (match ?r with (_, _) => _ end) => destruct r
    | |- ok16 (bind ?r _) => let T := type of r in first [unify T (res dev); apply ok16_bind; [|intros ? ?]|apply ok16_any; intros ?]
    end ].
Lemma nw_rew s u : no16 s -> ok16 (rew_cb s u).
Proof.
  intros V. un rew_cb. apply ok16_any. intros t. destruct (tape_rewind_frames _ _) as [t' r]. cbv zeta.
  assert (E : no16 (set_tape u t' s)) by nn. revert E. generalize (set_tape u t' s). intros x E.
  assert (R : ok16 (rew_end x u)) by (un rew_end; s16). destruct r; try exact R; cbn [ok16]; nn.
Qed.
Lemma nw_done s u : no16 s -> ok16 (done_cb s u).
Proof. intros V. un done_cb. s16. Qed.
Lemma nw_conv s : no16 s -> no16 (conv_in_last s).
Proof. intros V. unfold conv_in_last. nn. Qed.
Lemma nw_write fuel junk s u : no16 s -> ok16 (write_part fuel junk s u).
Proof.
  intros V. un write_part. destruct (d_data_end s).
  - apply ok16_any. intros n. apply ok16_bind; [|intros x X; s16]. destruct (_ && _); [|exact V]. destruct (conv_last _ _ _) as [b r]. apply ok16_any. intros c. s16.
  - destruct (negb _); [|s16]. n16. apply ok16_any. intros n. apply ok16_bind; [|intros; s16]. destruct (negb n); [|s16]. cbv zeta.
    apply ok16_any. intros b. cbn [ok16]. nn. destruct (conv_out _ _ _) as [[c e] f]. nn.
Qed.
Lemma nw_read7 s : no16 s -> ok16 (read7 s).
Proof.
  intros V. un read7. apply ok16_any. intros p. do 2 n16. apply ok16_bind; [s16|]. intros s2 V2. destruct (bit _ _); [|exact V2].
  destruct (conv_in _ _ _) as [[[c e] b] r]. s16.
Qed.
Lemma nw_read fuel junk s u : no16 s -> ok16 (read_part fuel junk s u).
Proof.
  intros V. un read_part. destruct (d_data_end s); [s16|]. destruct (d_data_rdy s); [s16|]. apply ok16_any. intros t. apply ok16_any. intros [[t' r] d]. n16.
  destruct r; try (cbn [ok16]; nn; fail).
  1: n16; apply ok16_any; intros n; destruct n; [s16|apply nw_read7; assumption].
  all: n16; apply ok16_any; intros n; cbv zeta; cbn [ok16]; nn; apply nw_conv; assumption.
Qed.
Lemma nw_motion fuel junk s u : no16 s -> ok16 (motion_part fuel junk s u).
Proof.
  intros V. un motion_part. l16. destruct (_ =? 15); [s16|]. destruct (_ =? 7); [s16|]. destruct (_ =? 23); [s16|]. destruct (_ =? 31); [s16|].
  destruct (_ || _); [|exact V]. un space_part. s16.
Qed.
Lemma nw_fire fuel junk s k u : no16 s -> ok16 (fire fuel junk s k u).
Proof.
  intros V. unfold fire. destruct (existsb _ _); [|exact V]. 
  assert (I : no16 (set_pend (remove_ev (k, u) (d_pend s)) s)) by exact V.
  revert I. generalize (set_pend (remove_ev (k, u) (d_pend s)) s). intros s1 I. cbv zeta. destruct k; [|apply nw_done; exact I|apply nw_rew; exact I].
  unfold tape_cb. destruct (_ || _); [apply nw_write; exact I|]. destruct (_ || _); [apply nw_read; exact I|]. destruct (_ || _); [apply nw_motion; exact I|exact I].
Qed.
Lemma nw_key s u k : no16 s -> ok16 (do_key s u k).
Proof.
  intros V. un do_key. apply ok16_any. intros t. 
  assert (SR : forall x, no16 (start_rewind s u x)) by (intros x; unfold start_rewind; nn).
  destruct k; try (s16; fail).
  - destruct (t_online t); [exact V|]. cbv zeta. cbn [ok16]. apply SR.
  - destruct (negb _); [|exact V]. cbv zeta. cbn [ok16]. nn. apply SR.
Qed.
Lemma nw_begin s c : no16 s -> bit c 16 = false -> ok16 (cmd_begin s c).
Proof.
  intros V C. un cmd_begin. apply ok16_any. intros o.
  match goal with |- ok16 (let s := ?X in @?B s) => refine (ok16_let X B _ _); [|intros s' I; cbv beta] end.
  - destruct o as [t|]; [|exact V]. destruct (tape_ready t); exact V.
  - match goal with |- ok16 (let s := ?X in @?B s) => refine (ok16_let X B _ _); [exact C|intros s'' I'; exact I'] end.
Qed.
Lemma nw_end s : no16 s -> ok16 (cmd_end s).
Proof. intros V. un cmd_end. s16. Qed.
Lemma nw_cmd s c : no16 s -> bit c 16 = false -> ok16 (device_cmd s c).
Proof.
  intros V C. un device_cmd. cbv zeta. destruct (_ && _); [exact V|]. apply ok16_bind; [apply nw_begin; assumption|]. intros x X.
  destruct (_ =? 0); [exact X|]. apply ok16_bind; [|intros; apply nw_end; assumption].
  destruct (_ || _); [un cmd_write; s16|]. destruct (_ || _); [un cmd_read; s16|]. destruct (_ =? 12); [un cmd_readback; s16|].
  destruct (_ =? 4); [cbn [ok16]; nn|]. destruct (_ || _); [cbn [ok16]; unfold cmd_mode; nn|]. destruct (_ || _); [un cmd_motion; s16|cbn [ok16]; nn].
Qed.

Definition lines_ok (st : dstate) (t : tags) : Prop :=
  match st with
  | IDLE => in_tags t = (false, false, false, false)
  | STATUS_WAIT => exists o, in_tags t = (o, false, false, false)
  | BUSY => in_tags t = (false, false, true, false)
  | INIT_SEL | STATUS | END_STATUS | OPR | DATA_1 | WAIT_DEVEND => in_tags t = (true, false, false, false)
  | COMMAND => in_tags t = (true, true, false, false)
  | STATUS_ACCEPT | END_ACCEPT => in_tags t = (true, false, true, false)
  | DATA_2 => in_tags t = (true, false, false, true)
  end.
Definition sel_ok (st : dstate) (sel : bool) : Prop := match st with IDLE | BUSY => True | _ => sel = true end.
Definition tinv (s : dev) (t : tags) : Prop := lines_ok (d_st s) t /\ sel_ok (d_st s) (d_sel s) /\ no16 s /\ d_busy s = false.
Lemma tinv_mk st sel s t : d_st s = st -> d_sel s = sel -> lines_ok st t -> sel_ok st sel -> no16 s -> d_busy s = false -> tinv s t.
Proof. unfold tinv. intros -> ->. auto. Qed.
Definition tinv_r (r : res (dev * tags * Z)) : Prop := match r with Ok (s, t, _) => tinv s t | _ => True end.
Lemma tr_any A (r : res A) k : (forall x, tinv_r (k x)) -> tinv_r (bind r k).
Proof. destruct r; cbn; auto. Qed.
Lemma tr_cmd s c k : no16 s -> bit c 16 = false -> (forall x, v4 x = v4 s -> no16 x -> tinv_r (k x)) -> tinv_r (bind (device_cmd s c) k).
Proof.
  intros N C K. destruct (device_cmd s c) as [x| |] eqn:E; cbn [bind tinv_r]; auto. apply K; [apply (cmd_st _ _ _ E)|].
  pose proof (nw_cmd s c N C) as X. rewrite E in X. exact X.
Qed.
Lemma bit16_land b : Z.testbit b 4 = false -> bit (Z.land b 255) 16 = false.
Proof.
  intros B. unfold bit. rewrite <- Z.land_assoc. change (Z.land 255 16) with (2 ^ 4).
  destruct (Z.eqb_spec (Z.land b (2 ^ 4)) 0) as [E|E]; [reflexivity|]. exfalso. apply E. apply Z.bits_inj'. intros n Hn.
  rewrite Z.land_spec, Z.pow2_bits_eqb, Z.bits_0 by lia. destruct (Z.eqb_spec 4 n) as [<-|]; [rewrite B; reflexivity|apply andb_false_r].
Qed.
Ltac fin_tags := repeat match goal with |- lines_ok _ ?t => match t with context [if ?b then _ else _] => destruct b end end;
  first [reflexivity | eexists; reflexivity | cbn [lines_ok]; congruence | idtac].
Ltac tg := match goal with
  | V : v4 ?x = _ |- tinv_r (Ok (?x, _, _)) => cbn [tinv_r]; let E1 := fresh in let E2 := fresh in let E5 := fresh in
      injection V as E1 E2 _ _ E5; eapply tinv_mk; [exact E1|exact E2|..]; [fin_tags|try reflexivity; try assumption|try assumption; try reflexivity|rewrite E5; try assumption; try reflexivity]
  | ST : d_st ?s = _ |- tinv_r (Ok _) => cbn [tinv_r]; eapply tinv_mk;
      [first [exact (eq_refl IDLE)|exact (eq_refl BUSY)|exact (eq_refl INIT_SEL)|exact (eq_refl COMMAND)|exact (eq_refl STATUS)|exact (eq_refl STATUS_ACCEPT)
             |exact (eq_refl STATUS_WAIT)|exact (eq_refl END_STATUS)|exact (eq_refl END_ACCEPT)|exact (eq_refl WAIT_DEVEND)|exact (eq_refl OPR)|exact (eq_refl DATA_1)|exact (eq_refl DATA_2)|match goal with H : d_st _ = _ |- _ => exact H end]
      |reflexivity|..];
      [fin_tags|try reflexivity; try assumption; try exact I|try assumption; try reflexivity|try assumption; try reflexivity] end.
Lemma chan_tinv a s t bo bi : tinv s t -> (cmdo t = true -> Z.testbit bo 4 = false) -> (resetting t -> d_st s <> BUSY) -> tinv_r (dev_step a s t bo bi).
Proof.
  intros (L & S1 & N & B) C R. unfold dev_step. cbv zeta.
  destruct t as [selo adro cmdo srvo supo hldo opro opri adri stai srvi reqi].
  cbn [Bus.selo Bus.adro Bus.cmdo Bus.srvo Bus.supo Bus.hldo Bus.opro Bus.opri Bus.adri Bus.stai Bus.srvi Bus.reqi set_selo set_adri set_stai set_srvi set_opri set_reqi] in *.
  destruct (negb opro && negb supo) eqn:RS.
  { assert (RS' : resetting (mkT selo adro cmdo srvo supo hldo opro opri adri stai srvi reqi)) by (destruct opro, supo; try discriminate RS; split; reflexivity).
    specialize (R RS'). destruct (d_st s) eqn:ST; try (exfalso; apply R; reflexivity); cbn [sel_ok] in S1; try rewrite S1;
      try (destruct (d_sel s)); tg; exact L. }
  destruct (d_st s) eqn:ST; cbn [lines_ok sel_ok] in L, S1; unfold in_tags in L; (match type of L with exists _, _ => destruct L as [o L] | _ => idtac end);
    cbn [Bus.opri Bus.adri Bus.stai Bus.srvi] in L; injection L as L1 L2 L3 L4; subst;
    try (match goal with |- context [if negb (has (d_rdyf s) (d_scan s)) then ?A else ?D] =>
      assert (X : d_st (if negb (has (d_rdyf s) (d_scan s)) then A else D) = IDLE /\ no16 (if negb (has (d_rdyf s) (d_scan s)) then A else D) /\
        d_busy (if negb (has (d_rdyf s) (d_scan s)) then A else D) = false) by (destruct (negb (has (d_rdyf s) (d_scan s))); repeat split; assumption);
      revert X; generalize (if negb (has (d_rdyf s) (d_scan s)) then A else D); intros s1 (ST1 & N1 & B1) end);
    rewrite ?B;
    repeat first [match goal with
      | |- tinv_r (if ?b then _ else _) => destruct b eqn:?
      | |- tinv_r (bind (if ?b then _ else _) _) => destruct b eqn:?
      | |- tinv_r (bind (bind ?r _) _) => destruct r; cbn [bind]; [|exact I|exact I]
      | |- tinv_r (bind (device_cmd _ _) _) => apply tr_cmd; [exact N|apply bit16_land; apply C; reflexivity|intros ? ? ?]
      | |- tinv_r (bind (Ok _) _) => cbn [bind]
      | |- tinv_r (bind _ _) => apply tr_any; intros ?
      | |- tinv_r (Ok (?x, _, _)) => match x with
        | set_st _ (set_sel _ (if ?b then _ else _)) => destruct b eqn:?
        | set_st _ (if ?b then _ else _) => destruct b eqn:?
        | set_st _ (or_status _ (if ?b then _ else _)) => destruct b eqn:?
        | set_st (if ?b then _ else _) _ => destruct b eqn:?
        | (if ?b then _ else _) => destruct b eqn:?
        | context [set_cur _ (if ?b then _ else _)] => destruct b eqn:?
        | context [set_st _ (if ?b then _ else _)] => destruct b eqn:?
        end
      end | tg].
  all: exfalso; match goal with H : _ || negb false = false |- _ => rewrite orb_true_r in H; discriminate H | H : bit _ 16 = true |- _ => change (bit (d_cmd s) 16 = true) in H; unfold no16 in N; congruence end.
Qed.
Lemma tags_keep_fire fuel junk s k u s' t : fire fuel junk s k u = Ok s' -> tinv s t -> tinv s' t.
Proof.
  intros E (L & S1 & N & B). pose proof (fire_st _ _ _ _ _ _ E) as V. injection V as V1 V2 _ _ V5. pose proof (nw_fire fuel junk s k u N) as X. rewrite E in X.
  unfold tinv. rewrite V1, V2, V5. auto.
Qed.
Lemma tags_keep_key s u k s' t : do_key s u k = Ok s' -> tinv s t -> tinv s' t.
Proof.
  intros E (L & S1 & N & B). pose proof (key_st _ _ _ _ E) as V. injection V as V1 V2 _ _ V5. pose proof (nw_key s u k N) as X. rewrite E in X.
  unfold tinv. rewrite V1, V2, V5. auto.
Qed.
Lemma lines_tags st t t1 : in_tags t1 = in_tags t -> lines_ok st t -> lines_ok st t1.
Proof. intros E. destruct st; unfold lines_ok; rewrite E; exact (fun H => H). Qed.
Lemma conn_tinv a l s t : conn False a l s t -> tinv s t.
Proof.
  induction 1 as [t I|s t t1 bo bi s' t' bi' _ IH I H E|s t fuel junk k u s' _ IH E|s t u k s' _ IH E].
  - split; [exact I|]. split; [exact Logic.I|]. split; reflexivity.
  - destruct H as [[]|[C R]]. assert (T1 : tinv s t1) by (destruct IH as (L & IH); split; [apply (lines_tags _ t); assumption|exact IH]).
    pose proof (chan_tinv a s t1 bo bi T1 C R) as X. rewrite E in X. exact X.
  - apply (tags_keep_fire _ _ _ _ _ _ _ E IH).
  - apply (tags_keep_key _ _ _ _ _ E IH).
Qed.
Lemma tinv_ok s t : tinv s t -> tags_ok s t.
Proof.
  intros (L & _). unfold tags_ok. destruct (d_st s); cbn [lines_ok] in L; (match type of L with exists _, _ => destruct L as [o L] | _ => idtac end); unfold in_tags in L; injection L as -> -> -> ->;
    repeat split; intros; try discriminate; auto.
Qed.
