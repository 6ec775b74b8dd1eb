(** The card reader and punch: parity of what is sent, reset, tags. *)
From Verif Require Export R1442.Proofs2.

Lemma parity_odd9 x y : with_parity x = Ok y -> odd9 y.
Proof.
  intros H. assert (X : 0 <= x < 256).
  { unfold with_parity in H. destruct (tab odd_parity x) as [p| |] eqn:E; try discriminate H. apply tab_range in E. exact E. }
  destruct (parity_step x X) as (z & E & O). rewrite E in H. injection H as <-. exact O.
Qed.
Ltac chan_cases H := unfold dev_step in H; cbv zeta in H.
Lemma chan_odd a s t bo bi s' t' bi' : dev_step a s t bo bi = Ok (s', t', bi') -> bi' = bi \/ odd9 bi'.
Proof.
  intros H. chan_cases H. destruct (negb (opro t) && negb (supo t)); [injection H as _ _ <-; left; reflexivity|].
  destruct (d_st s);
    repeat (match type of H with
      | (if ?b then _ else _) = _ => destruct b
      | bind (if ?b then _ else _) _ = _ => destruct b
      | bind (bind ?r _) _ = _ => destruct r
      | bind (with_parity _) _ = _ => let E := fresh "E" in destruct (with_parity _) eqn:E; [apply parity_odd9 in E| |]
      | bind ?r _ = _ => destruct r end; cbn [bind] in H; try discriminate H);
    injection H as _ _ <-; first [left; reflexivity|right; assumption].
Qed.

Lemma regs_init : regs_ok init_dev.
Proof. repeat split; try discriminate; reflexivity. Qed.
Lemma run_regs a : forall l s s', regs_ok s -> no_writes l -> run a s l = Ok s' -> regs_ok s'.
Proof.
  induction l as [|x l IH]; intros s s' R N H; cbn [run] in H; [injection H as <-; exact R|].
  destruct (astep a s x) as [s1| |] eqn:E; cbn [bind] in H; try discriminate H. apply (IH s1 s'); [|intros t bo bi I; apply (N t bo bi); right; exact I|exact H].
  destruct x as [t bo bi|k|k]; cbn [astep] in E; [|apply (fire_regs _ _ _ E R)|apply (key_regs _ _ _ E R)].
  destruct (chan_regs a s t bo bi R) as (s2 & t2 & b2 & E2 & R2 & _); [intros C; apply (N t bo bi); [left; reflexivity|exact C]|].
  rewrite E2 in E. cbn [bind fst] in E. injection E as <-. exact R2.
Qed.

(** *** Reset *)
Definition calm (s : dev) : Prop := d_st s = IDLE /\ d_req s = false /\ d_stk s = false /\ d_pend s = [].
Lemma calm_chan a s t bo bi : calm s -> opro t = true \/ supo t = true \/ True -> unaddressed a (Chan t bo bi) ->
  exists s' t', dev_step a s t bo bi = Ok (s', t', bi) /\ calm s' /\ ~ drives t bi t' bi /\ (reqi t' = true -> reqi t = true).
Proof.
  intros (ST & RQ & SK & PE) _ U. unfold dev_step. cbv zeta.
  destruct (negb (opro t) && negb (supo t)).
  { do 2 eexists. split; [reflexivity|]. split; [repeat split; assumption|]. destruct (d_sel s); (split; [nod|exact (fun x => x)]). }
  rewrite ST. cbn [set_disc d_req d_stk]. rewrite RQ, SK. cbn [orb].
  destruct (negb (opro t)); [do 2 eexists; split; [reflexivity|]; split; [repeat split; assumption|]; split; [nod|exact (fun x => x)]|].
  destruct (opri t); [do 2 eexists; split; [reflexivity|]; split; [repeat split; assumption|]; split; [nod|exact (fun x => x)]|].
  destruct (selo t) eqn:S1; [|do 2 eexists; split; [reflexivity|]; split; [repeat split; assumption|]; split; [nod|exact (fun x => x)]].
  destruct (adro t) eqn:S2.
  - destruct (Z.land bo 255 =? Z.land a 255) eqn:S3; [|do 2 eexists; split; [reflexivity|]; split; [repeat split; assumption|]; split; [nod|exact (fun x => x)]].
    exfalso. apply U. split; [exact S1|]. split; [exact S2|]. apply Z.eqb_eq. exact S3.
  - rewrite andb_false_r. do 2 eexists; split; [reflexivity|]; split; [repeat split; assumption|]; split; [nod|exact (fun x => x)].
Qed.
Lemma feed_calm s s' : do_feed s = Ok s' -> calm s -> calm s'.
Proof.
  intros H R. unfold do_feed in H. destruct (_ && _) in H; [injection H as <-; exact R|].
  match type of H with bind ?r _ = _ => destruct r as [s1| |] eqn:E1 end; cbn [bind] in H; try discriminate H.
  assert (X1 : calm s1).
  { destruct (d_pch_full s); [|injection E1 as <-; exact R]. destruct (stack_card _ _) as [c| |]; cbn [bind] in E1; try discriminate E1. injection E1 as <-. destruct (d_stk_sel s); exact R. }
  clear E1 R s. set (s2 := if d_rdr_full s1 then _ else s1) in H. assert (X2 : calm s2) by (subst s2; destruct (d_rdr_full s1); exact X1).
  clearbody s2. clear X1 s1. match type of H with bind ?r _ = _ => destruct r as [s3| |] eqn:E3 end; cbn [bind] in H; try discriminate H.
  assert (X3 : calm s3).
  { destruct (negb (d_stop s2)); [|injection E3 as <-; exact X2]. destruct (read_card (d_feed s2)) as [[f [c|]]| |]; cbn [bind fst snd] in E3; try discriminate E3; injection E3 as <-;
      match goal with |- calm (if ?b then _ else _) => destruct b end; exact X2. }
  clear E3 X2 s2. injection H as <-. match goal with |- calm (if ?b then _ else _) => destruct b end; exact X3.
Qed.
Lemma key_calm s k s' : do_key s k = Ok s' -> calm s -> calm s'.
Proof.
  intros H R. unfold do_key in H. destruct k; cbn [bind] in H.
  2:{ destruct (d_st s) eqn:ST; cbn [bind] in H; try (injection H as <-; exact R).
      destruct (negb (d_rdr_full s)) eqn:F.
      - destruct (do_feed s) as [s1| |] eqn:E; cbn [bind] in H; try discriminate H. apply feed_calm in E; [|exact R]. injection H as <-. destruct (d_rdr_full s1); exact E.
      - cbn [bind] in H. injection H as <-. destruct (d_rdr_full s); exact R. }
  2:{ destruct (do_feed s) as [s1| |] eqn:E; cbn [bind] in H; try discriminate H. apply feed_calm in E; [|exact R]. injection H as <-. exact E. }
  all: repeat match type of H with context [bind (bind ?r _) _] => destruct r; cbn [bind] in H; try discriminate H end; injection H as <-; exact R.
Qed.
Lemma calm_run a : forall l s s', calm s -> Forall (unaddressed a) l -> run a s l = Ok s' -> calm s'.
Proof.
  induction l as [|x l IH]; intros s s' C F H; cbn [run] in H; [injection H as <-; exact C|]. inversion F; subst.
  destruct (astep a s x) as [s1| |] eqn:E; cbn [bind] in H; try discriminate H. apply (IH s1 s'); [|assumption|exact H].
  destruct x as [t bo bi|k|k]; cbn [astep] in E; [|contradiction|apply (key_calm _ _ _ E C)].
  destruct (calm_chan a s t bo bi C ltac:(auto)) as (s2 & t2 & E2 & C2 & _); [assumption|]. rewrite E2 in E. cbn [bind fst] in E. injection E as <-. exact C2.
Qed.

(** *** Tags *)
Definition lines (st : dstate) : bool * bool * bool * bool :=   (* opri adri stai srvi *)
  match st with
  | IDLE | STATUS_WAIT => (false, false, false, false)
  | BUSY => (false, false, true, false)
  | INIT_SEL | STATUS | END_STATUS | OPR | DATA_1 | WAIT_DEVEND => (true, false, false, false)
  | COMMAND => (true, true, false, false)
  | STATUS_ACCEPT | END_ACCEPT => (true, false, true, false)
  | DATA_2 => (true, false, false, true)
  end.
Definition sel_ok (st : dstate) (sel : bool) : Prop := match st with IDLE | BUSY => True | WAIT_DEVEND => False | _ => sel = true end.
Definition selst (s : dev) := (d_st s, d_sel s).
Definition tinv (s : dev) (t : tags) : Prop := in_tags t = lines (fst (selst s)) /\ sel_ok (fst (selst s)) (snd (selst s)).
Lemma selst_if (b : bool) x y v : selst x = v -> selst y = v -> selst (if b then x else y) = v.
Proof. destruct b; intros; assumption. Qed.
Ltac ssi := repeat match goal with |- selst (if ?b then _ else _) = _ => apply selst_if | |- _ => reflexivity end.
Lemma ss_cmd_end s : selst (cmd_end s) = selst s.
Proof. unfold cmd_end. ssi; destruct (d_data_end s); ssi. Qed.
Lemma ss_device_cmd s c : selst (device_cmd s c) = selst s.
Proof. unfold device_cmd. cbv zeta. ssi; rewrite ?ss_cmd_end; reflexivity. Qed.
Lemma ss_device_stop s : selst (device_stop s) = selst s.
Proof. unfold device_stop. cbv zeta. ssi; repeat match goal with |- context [if ?b then _ else _] => destruct b end; reflexivity. Qed.
Lemma tinv_mk s t st sel : selst s = (st, sel) -> in_tags t = lines st -> sel_ok st sel -> tinv s t.
Proof. unfold tinv. intros ->. split; assumption. Qed.
Lemma ss_disc v s : selst (set_disc v s) = selst s.
Proof. reflexivity. Qed.
Lemma ss_opr_stop s x : selst s = x -> selst (device_stop s) = x.
Proof. rewrite ss_device_stop. exact (fun H => H). Qed.

Lemma ss_req v s : selst (set_req v s) = selst s.
Proof. reflexivity. Qed.
Lemma ss_stk v s : selst (set_stk v s) = selst s.
Proof. reflexivity. Qed.
Lemma ss_busy v s : selst (set_busy v s) = selst s.
Proof. reflexivity. Qed.
Lemma ss_sense v s : selst (set_sense v s) = selst s.
Proof. reflexivity. Qed.
Lemma ss_cmd v s : selst (set_cmd v s) = selst s.
Proof. reflexivity. Qed.
Lemma ss_cmd_done v s : selst (set_cmd_done v s) = selst s.
Proof. reflexivity. Qed.
Lemma ss_status v s : selst (set_status v s) = selst s.
Proof. reflexivity. Qed.
Lemma ss_data v s : selst (set_data v s) = selst s.
Proof. reflexivity. Qed.
Lemma ss_data_rdy v s : selst (set_data_rdy v s) = selst s.
Proof. reflexivity. Qed.
Lemma ss_data_end v s : selst (set_data_end v s) = selst s.
Proof. reflexivity. Qed.
Lemma ss_post v s : selst (set_post v s) = selst s.
Proof. reflexivity. Qed.
Lemma ss_feed_done v s : selst (set_feed_done v s) = selst s.
Proof. reflexivity. Qed.
Lemma ss_or_sense v s : selst (or_sense v s) = selst s.
Proof. reflexivity. Qed.
Lemma ss_or_status v s : selst (or_status v s) = selst s.
Proof. reflexivity. Qed.
Lemma ss_st v s : selst (set_st v s) = (v, snd (selst s)).
Proof. reflexivity. Qed.
Lemma ss_sel v s : selst (set_sel v s) = (fst (selst s), v).
Proof. reflexivity. Qed.
Ltac sts := repeat (progress rewrite ?ss_device_cmd, ?ss_device_stop, ?ss_st, ?ss_sel, ?ss_or_sense, ?ss_or_status, ?ss_req, ?ss_stk, ?ss_disc, ?ss_busy, ?ss_sense, ?ss_cmd, ?ss_cmd_done, ?ss_status, ?ss_data, ?ss_data_rdy, ?ss_data_end, ?ss_post, ?ss_feed_done).
Ltac tg E := revert E; unfold in_tags; cbn [set_opri set_adri set_srvi set_stai set_reqi set_selo opri adri stai srvi reqi selo adro hldo cmdo srvo supo opro lines];
  let A := fresh in let B := fresh in let C := fresh in let D := fresh in
  intros E; injection E as A B C D; rewrite ?A, ?B, ?C, ?D; reflexivity.
Lemma tinv_chan a s t t1 bo bi s' t' bi' : tinv s t -> in_tags t1 = in_tags t -> hldo t1 = false -> (resetting t1 -> d_st s <> BUSY) ->
  dev_step a s t1 bo bi = Ok (s', t', bi') -> tinv s' t'.
Proof.
  intros [T S] E HL RB H. rewrite T in E. clear T t. unfold selst in E, S. cbn [fst snd] in E, S.
  assert (CON : forall st, d_st s = st -> lines st = lines (d_st s)) by (intros; congruence).
  chan_cases H. destruct (negb (opro t1) && negb (supo t1)) eqn:RS.
  { assert (R : resetting t1) by (apply andb_prop in RS; destruct RS as [R1 R2]; split; [destruct (opro t1); [discriminate R1|reflexivity]|destruct (supo t1); [discriminate R2|reflexivity]]). specialize (RB R).
    injection H as <- <- _. apply (tinv_mk _ _ IDLE false); [reflexivity| |exact I]. cbn [lines].
    destruct (d_st s) eqn:ST; cbn [sel_ok] in S; try contradiction; try congruence; try (rewrite S; tg E).
    destruct (d_sel s); tg E. }
  destruct (d_st s) eqn:ST; cbn [sel_ok lines] in S, E; try contradiction;
    repeat (match type of H with
      | (if ?b then _ else _) = _ => let E := fresh "E" in destruct b eqn:E
      | bind (if ?b then _ else _) _ = _ => destruct b
      | bind (bind ?r _) _ = _ => destruct r
      | bind ?r _ = _ => destruct r end; cbn [bind] in H; try discriminate H);
    injection H as <- <- _.
  all: cbn [hldo set_selo set_stai set_adri set_opri set_srvi]; rewrite ?HL; cbn [negb].
  all: try (match goal with X : context [hldo ?q] |- _ => change (hldo q) with (hldo t1) in X; rewrite HL in X; discriminate X end).
  all: repeat match goal with |- tinv ?x ?y => match x with context [if ?b then _ else _] => destruct b | _ => match y with context [if ?b then _ else _] => destruct b end end end.
  all: unfold tinv; sts; unfold selst; rewrite ?ST; cbn [fst snd lines sel_ok]; (split; [tg E|try exact I; try reflexivity; try exact S]).
Qed.
Lemma feed_selst s s' : do_feed s = Ok s' -> selst s' = selst s.
Proof.
  intros H. unfold do_feed in H. destruct (_ && _) in H; [injection H as <-; reflexivity|].
  match type of H with bind ?r _ = _ => destruct r as [s1| |] eqn:E1 end; cbn [bind] in H; try discriminate H.
  assert (X1 : selst s1 = selst s).
  { destruct (d_pch_full s); [|injection E1 as <-; reflexivity]. destruct (stack_card _ _) as [c| |]; cbn [bind] in E1; try discriminate E1. injection E1 as <-. destruct (d_stk_sel s); reflexivity. }
  clear E1. rewrite <- X1. clear X1. set (s2 := if d_rdr_full s1 then _ else s1) in H. assert (X2 : selst s2 = selst s1) by (subst s2; destruct (d_rdr_full s1); reflexivity).
  clearbody s2. rewrite <- X2. clear X2 s1 s. match type of H with bind ?r _ = _ => destruct r as [s3| |] eqn:E3 end; cbn [bind] in H; try discriminate H.
  assert (X3 : selst s3 = selst s2).
  { destruct (negb (d_stop s2)); [|injection E3 as <-; reflexivity]. destruct (read_card (d_feed s2)) as [[f [c|]]| |]; cbn [bind fst snd] in E3; try discriminate E3; injection E3 as <-;
      match goal with |- selst (if ?b then _ else _) = _ => destruct b end; reflexivity. }
  rewrite <- X3. injection H as <-. match goal with |- selst (if ?b then _ else _) = _ => destruct b end; reflexivity.
Qed.
Lemma key_selst s k s' : do_key s k = Ok s' -> selst s' = selst s.
Proof.
  intros H. unfold do_key in H. destruct k; cbn [bind] in H.
  2:{ destruct (d_st s) eqn:ST; cbn [bind] in H; try (injection H as <-; reflexivity).
      destruct (negb (d_rdr_full s)) eqn:F.
      - destruct (do_feed s) as [s1| |] eqn:E; cbn [bind] in H; try discriminate H. apply feed_selst in E. injection H as <-. rewrite <- E. destruct (d_rdr_full s1); reflexivity.
      - cbn [bind] in H. injection H as <-. destruct (d_rdr_full s); reflexivity. }
  2:{ destruct (do_feed s) as [s1| |] eqn:E; cbn [bind] in H; try discriminate H. apply feed_selst in E. injection H as <-. exact E. }
  all: repeat match type of H with context [bind (bind ?r _) _] => destruct r; cbn [bind] in H; try discriminate H end; injection H as <-; reflexivity.
Qed.
Lemma fire_selst s k s' : fire s k = Ok s' -> selst s' = selst s.
Proof.
  intros H. unfold fire in H. destruct (existsb _ _); [|injection H as <-; reflexivity].
  assert (C : selst (cancel_ev k s) = selst s) by reflexivity. revert C H. generalize (cancel_ev k s). intros s1 C H. rewrite <- C. clear C.
  destruct k.
  - unfold read_cb in H. repeat (match type of H with context [if ?b then _ else _] => destruct b | context [bind (bind ?r _) _] => destruct r | context [bind ?r _] => destruct r end; cbn [bind] in H; try discriminate H); injection H as <-; reflexivity.
  - unfold write_cb in H. repeat (match type of H with context [if ?b then _ else _] => destruct b | context [bind (bind ?r _) _] => destruct r | context [bind ?r _] => destruct r end; cbn [bind] in H; try discriminate H); injection H as <-; reflexivity.
  - unfold feed_cb in H. cbv zeta in H. assert (C : selst (feed_flags s1) = selst s1) by reflexivity. rewrite <- C. clear C. revert H. generalize (feed_flags s1). clear s1 s. intros s1 H.
    destruct (_ && _).
    + apply feed_selst in H. exact H.
    + destruct (do_feed s1) as [s2| |] eqn:E; cbn [bind] in H; try discriminate H. apply feed_selst in E. injection H as <-. rewrite <- E. destruct (d_sense s2 =? 0); reflexivity.
Qed.
Lemma conn_tinv a s t : conn False a s t -> tinv s t.
Proof.
  intros C. induction C as [t E|s t t1 bo bi s' t' bi' C IH E O H|s t k s' C IH H|s t k s' C IH H].
  - split; [exact E|exact I].
  - destruct O as [[]|[HL RB]]. apply (tinv_chan a s t t1 bo bi s' t' bi' IH E HL RB H).
  - unfold tinv. rewrite (fire_selst _ _ _ H). exact IH.
  - unfold tinv. rewrite (key_selst _ _ _ H). exact IH.
Qed.
Lemma tinv_ok s t : tinv s t -> tags_ok s t.
Proof.
  unfold tinv, tags_ok, in_tags, selst. cbn [fst snd]. intros [E S]. destruct (d_st s); cbn [lines] in E; injection E as -> -> -> ->; repeat split; intros; try discriminate; try reflexivity; try (left; reflexivity); right; reflexivity.
Qed.
