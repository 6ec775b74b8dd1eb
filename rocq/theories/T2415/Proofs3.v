(** The tape control: selection, and what callbacks and keys leave alone. *)
From Verif Require Export T2415.Proofs2.

Definition v4 (s : dev) := (d_st s, d_sel s, d_req s, d_stk s, d_busy s).
Definition okv v (r : res dev) : Prop := match r with Ok s => v4 s = v | _ => True end.
Lemma okv_bind v r k : okv v r -> (forall s, v4 s = v -> okv v (k s)) -> okv v (bind r k).
Proof. destruct r; cbn; auto. Qed.
Lemma okv_any A v (r : res A) k : (forall x, okv v (k x)) -> okv v (bind r k).
Proof. destruct r; cbn; auto. Qed.
Lemma okv_let v X (B : dev -> res dev) : v4 X = v -> (forall s, v4 s = v -> okv v (B s)) -> okv v (B X).
Proof. auto. Qed.
Ltac vv := repeat match goal with
  | H : v4 ?x = ?v |- v4 ?x = ?v => exact H
  | |- v4 ?x = ?v => match x with
    | set_sense0 _ ?y => change (v4 y = v) | set_sense1 _ ?y => change (v4 y = v) | set_sense2 _ ?y => change (v4 y = v) | set_sense3 _ ?y => change (v4 y = v) | set_scnt _ ?y => change (v4 y = v) | set_chain _ ?y => change (v4 y = v) | set_cmd _ ?y => change (v4 y = v) | set_cmd_done _ ?y => change (v4 y = v) | set_status _ ?y => change (v4 y = v) | set_data _ ?y => change (v4 y = v) | set_cbuf _ ?y => change (v4 y = v) | set_data_rdy _ ?y => change (v4 y = v) | set_data_end _ ?y => change (v4 y = v) | set_post _ ?y => change (v4 y = v) | set_cbusy _ ?y => change (v4 y = v) | set_cur _ ?y => change (v4 y = v) | set_statu _ ?y => change (v4 y = v) | set_scan _ ?y => change (v4 y = v) | set_rew _ ?y => change (v4 y = v) | set_run _ ?y => change (v4 y = v) | set_rdyf _ ?y => change (v4 y = v) | set_mrk _ ?y => change (v4 y = v) | set_tapes _ ?y => change (v4 y = v) | set_cc _ ?y => change (v4 y = v) | set_mode7 _ ?y => change (v4 y = v) | set_mode9 _ ?y => change (v4 y = v) | set_pend _ ?y => change (v4 y = v)
    | or_status _ ?y => change (v4 y = v) | or_sense _ ?y => change (v4 y = v) | clear_sense ?y => change (v4 y = v) | start_ev ?y => change (v4 y = v)
    | add_ev _ _ ?y => change (v4 y = v) | set_tape _ _ ?y => change (v4 y = v)
    | if ?b then _ else _ => destruct b
    | (let _ := _ in _) => cbv zeta
    | match ?r with SErr => _ | _ => _ end => destruct r
    | match ?r with Some _ => _ | _ => _ end => destruct r
    end end.
Ltac nv := match goal with |- okv ?v (let s := ?X in @?B s) =>
  let T := type of X in unify T dev;
  let I := fresh "I" in let s' := fresh "s" in
  refine (okv_let v X B _ _); [vv|intros s' I; cbv beta] end.
Ltac lz := match goal with |- okv ?v (let c := ?X in @?B c) => change (okv v (B X)); generalize X; intros ?; cbv beta end.
Ltac sv := repeat first [nv | lz
  | match goal with
    | |- okv _ (Ok _) => cbn [okv]; vv
    | |- okv _ (if ?b then _ else _) => destruct b
    | |- okv _ (match ?r with SErr => _ | _ => _ end) => destruct r
    | |- okv _ (match ?r with (_, _) => _ end) => destruct r
    | |- okv ?v (bind ?r _) => let T := type of r in first [unify T (res dev); apply okv_bind; [|intros ? ?]|apply okv_any; intros ?]
    end ].
Ltac go f := intros V; cbv beta delta [f].
Lemma vw_rew s u v : v4 s = v -> okv v (rew_cb s u).
Proof.
  intros V. un rew_cb. apply okv_any. intros t. destruct (tape_rewind_frames _ _) as [t' r]. cbv zeta.
  assert (E : v4 (set_tape u t' s) = v) by vv. revert E. generalize (set_tape u t' s). intros x E.
  assert (R : okv v (rew_end x u)) by (un rew_end; sv). destruct r; try exact R; cbn [okv]; vv.
Qed.
Lemma vw_done s u v : v4 s = v -> okv v (done_cb s u).
Proof. intros V. un done_cb. sv. Qed.
Lemma vw_conv s v : v4 s = v -> v4 (conv_in_last s) = v.
Proof. intros V. unfold conv_in_last. vv. Qed.
Lemma vw_write fuel junk s u v : v4 s = v -> okv v (write_part fuel junk s u).
Proof.
  intros V. un write_part. destruct (d_data_end s).
  - apply okv_any. intros n. apply okv_bind; [|intros x X; sv]. destruct (_ && _); [|exact V]. destruct (conv_last _ _ _) as [b r]. apply okv_any. intros c. sv.
  - destruct (negb _); [|sv]. nv. apply okv_any. intros n. apply okv_bind; [|intros; sv]. destruct (negb n); [|sv]. cbv zeta.
    apply okv_any. intros b. cbn [okv]. vv. destruct (conv_out _ _ _) as [[c e] f]. vv.
Qed.
Lemma vw_read7 s v : v4 s = v -> okv v (read7 s).
Proof.
  intros V. un read7. apply okv_any. intros p. do 2 nv. apply okv_bind; [sv|]. intros s2 V2. destruct (bit _ _); [|exact V2].
  destruct (conv_in _ _ _) as [[[c e] b] r]. sv.
Qed.
Lemma vw_read fuel junk s u v : v4 s = v -> okv v (read_part fuel junk s u).
Proof.
  intros V. un read_part. destruct (d_data_end s); [sv|]. destruct (d_data_rdy s); [sv|]. apply okv_any. intros t. apply okv_any. intros [[t' r] d]. nv.
  destruct r; try (cbn [okv]; vv; fail).
  1: nv; apply okv_any; intros n; destruct n; [sv|apply vw_read7; assumption].
  all: nv; apply okv_any; intros n; cbv zeta; cbn [okv]; vv; apply vw_conv; assumption.
Qed.
Lemma vw_motion fuel junk s u v : v4 s = v -> okv v (motion_part fuel junk s u).
Proof.
  intros V. un motion_part. lz. destruct (_ =? 15); [sv|]. destruct (_ =? 7); [sv|]. destruct (_ =? 23); [sv|]. destruct (_ =? 31); [sv|].
  destruct (_ || _); [|exact V]. un space_part. sv.
Qed.
Lemma vw_fire fuel junk s k u v : v4 s = v -> okv v (fire fuel junk s k u).
Proof.
  intros V. unfold fire. destruct (existsb _ _); [|exact V]. 
  assert (I : v4 (set_pend (remove_ev (k, u) (d_pend s)) s) = v) by exact V.
  revert I. generalize (set_pend (remove_ev (k, u) (d_pend s)) s). intros s1 I. cbv zeta. destruct k; [|apply vw_done; exact I|apply vw_rew; exact I].
  unfold tape_cb. destruct (_ || _); [apply vw_write; exact I|]. destruct (_ || _); [apply vw_read; exact I|]. destruct (_ || _); [apply vw_motion; exact I|exact I].
Qed.
Lemma vw_key s u k v : v4 s = v -> okv v (do_key s u k).
Proof.
  intros V. un do_key. apply okv_any. intros t. 
  assert (SR : forall x, v4 (start_rewind s u x) = v) by (intros x; unfold start_rewind; vv).
  destruct k; try (sv; fail).
  - destruct (t_online t); [exact V|]. cbv zeta. cbn [okv]. apply SR.
  - destruct (negb _); [|exact V]. cbv zeta. cbn [okv]. vv. apply SR.
Qed.
Lemma vw_begin s c v : v4 s = v -> okv v (cmd_begin s c).
Proof.
  intros V. un cmd_begin. apply okv_any. intros o. 
  match goal with |- okv ?v (let s := ?X in @?B s) => refine (okv_let v X B _ _); [|intros s' I; cbv beta; sv] end.
  destruct o as [t|]; [|exact V]. destruct (tape_ready t); exact V.
Qed.
Lemma vw_end s v : v4 s = v -> okv v (cmd_end s).
Proof. intros V. un cmd_end. sv. Qed.
Lemma vw_cmd s c v : v4 s = v -> okv v (device_cmd s c).
Proof.
  intros V. un device_cmd. cbv zeta. destruct (_ && _); [cbn [okv]; vv|]. apply okv_bind; [apply vw_begin; exact V|]. intros x X.
  destruct (_ =? 0); [exact X|]. apply okv_bind; [|intros; apply vw_end; assumption].
  destruct (_ || _); [un cmd_write; sv|]. destruct (_ || _); [un cmd_read; sv|]. destruct (_ =? 12); [un cmd_readback; sv|].
  destruct (_ =? 4); [cbn [okv]; vv|]. destruct (_ || _); [cbn [okv]; unfold cmd_mode; vv|]. destruct (_ || _); [un cmd_motion; sv|cbn [okv]; vv].
Qed.
Lemma fire_st fuel junk s k u s' : fire fuel junk s k u = Ok s' -> v4 s' = v4 s.
Proof. intros E. pose proof (vw_fire fuel junk s k u (v4 s) eq_refl) as X. rewrite E in X. exact X. Qed.
Lemma key_st s u k s' : do_key s u k = Ok s' -> v4 s' = v4 s.
Proof. intros E. pose proof (vw_key s u k (v4 s) eq_refl) as X. rewrite E in X. exact X. Qed.
Lemma cmd_st s c s' : device_cmd s c = Ok s' -> v4 s' = v4 s.
Proof. intros E. pose proof (vw_cmd s c (v4 s) eq_refl) as X. rewrite E in X. exact X. Qed.
Lemma v4_st s s' : v4 s' = v4 s -> d_st s' = d_st s.
Proof. intros E. injection E as E _ _ _ _. exact E. Qed.

(** *** Selection *)
Ltac okinv H := match type of H with
  | Ok (_, _, _) = Ok (_, _, _) => injection H as <- <- <-
  | Ok _ = Ok _ => injection H as <-
  | UB = Ok _ => discriminate H | NoFuel = Ok _ => discriminate H end.
Lemma run_app a l1 : forall s l2, run a s (l1 ++ l2) = (let* s1 := run a s l1 in run a s1 l2).
Proof. induction l1 as [|x l1 IH]; intros s l2; cbn [app run]; [reflexivity|]. destruct (astep a s x); cbn [bind]; try reflexivity. apply IH. Qed.
Ltac nod := unfold drives; cbn [set_opri set_adri set_srvi set_stai set_reqi set_selo opri adri stai srvi reqi selo adro];
  intros [[? ?]|[[? ?]|[[? ?]|[[? ?]|[D|D]]]]]; try congruence; try (apply D; congruence).
Lemma idle_step a s t bo bi s' t' bi' : d_st s = IDLE -> dev_step a s t bo bi = Ok (s', t', bi') ->
  (selecting a s t bo /\ ~ resetting t) \/ (d_st s' = IDLE /\ ~ drives t bi t' bi').
Proof.
  intros ST H. unfold dev_step in H. rewrite ST in H.
  destruct (negb (opro t) && negb (supo t)) eqn:R.
  { okinv H. right. split; [reflexivity|]. destruct (d_sel s); nod. }
  assert (NR : ~ resetting t) by (intros [R1 R2]; rewrite R1, R2 in R; discriminate R).
  destruct (negb (opro t)) eqn:O1; [okinv H; right; split; [exact ST|nod]|].
  set (s1 := if negb (has (d_rdyf s) (d_scan s)) then _ else _) in H.
  assert (S1 : d_st s1 = IDLE) by (subst s1; destruct (has (d_rdyf s) (d_scan s)); exact ST).
  assert (AS : d_req s1 || d_stk s1 = true -> asking s).
  { subst s1. unfold asking. destruct (has (d_rdyf s) (d_scan s)) eqn:HS; cbn [negb]; [auto|]. cbn [d_req d_stk set_scan]. intros O. apply orb_prop in O. destruct O; auto. }
  clearbody s1. cbv zeta in H.
  destruct (opri t) eqn:O2; [okinv H; right; split; [exact S1|destruct (d_req _ || d_stk _); nod]|].
  set (t1 := if d_req s1 || d_stk s1 then _ else t) in H.
  assert (T1 : adro t1 = adro t /\ selo t1 = selo t /\ supo t1 = supo t /\ opri t1 = opri t /\ adri t1 = adri t /\ stai t1 = stai t /\ srvi t1 = srvi t)
    by (subst t1; destruct (d_req s1 || d_stk s1); cbn; repeat split).
  clearbody t1. destruct T1 as (A1 & A2 & A3 & A4 & A5 & A6 & A7). rewrite A1, A2, A3 in H.
  destruct (selo t) eqn:SL; [|okinv H; right; split; [exact S1|nod]].
  destruct (adro t) eqn:S2.
  - destruct (Z.land bo 248 =? Z.land a 248) eqn:S3; [|okinv H; right; split; [exact S1|nod]].
    left. clear H. split; [|exact NR]. unfold selecting. rewrite SL, S2, O2. destruct (opro t); [|discriminate O1]. repeat split. left. split; [reflexivity|apply Z.eqb_eq; exact S3].
  - destruct (negb (supo t) && (d_req s1 || d_stk s1)) eqn:S3; [|okinv H; right; split; [exact S1|nod]].
    left. clear H. split; [|exact NR]. unfold selecting. rewrite SL, S2, O2. destruct (opro t); [|discriminate O1]. repeat split. right.
    apply andb_prop in S3. destruct S3 as [S3 S4]. split; [reflexivity|]. split; [destruct (supo t); [discriminate S3|reflexivity]|apply AS, S4].
Qed.
Lemma reset_idle a s t bo bi r : resetting t -> dev_step a s t bo bi = Ok r -> d_st (fst (fst r)) = IDLE.
Proof. intros [R1 R2] H. unfold dev_step in H. rewrite R1, R2 in H. cbn [negb andb] in H. injection H as <-. reflexivity. Qed.
Lemma owned_when_active a s0 : d_st s0 = IDLE -> forall l s, run a s0 l = Ok s -> d_st s <> IDLE -> owned a s0 l.
Proof.
  intros I0. induction l as [|x l IH] using rev_ind; intros s R N; [cbn in R; injection R as <-; congruence|].
  rewrite run_app in R. destruct (run a s0 l) as [s1| |] eqn:R1; cbn [bind run] in R; try discriminate R.
  destruct (astep a s1 x) as [s2| |] eqn:ST; cbn [bind] in R; try discriminate R. injection R as ->.
  assert (EXT : d_st s1 <> IDLE -> (forall t' bo' bi', x = Chan t' bo' bi' -> ~ resetting t') -> owned a s0 (l ++ [x])).
  { intros N1 NR. destruct (IH s1 eq_refl N1) as (pre & t & bo & bi & post & q & -> & Q & SEL & A & B).
    exists pre, t, bo, bi, (post ++ [x]), q. split; [rewrite <- app_assoc; reflexivity|]. split; [exact Q|]. split; [exact SEL|]. split.
    - intros t' bo' bi' IN. apply in_app_or in IN. destruct IN as [IN|[IN|[]]]; [apply (A _ _ _ IN)|apply (NR _ _ _ IN)].
    - intros p q' s' E RR. destruct q' as [|y q' _] using rev_ind.
      + rewrite app_nil_r in E. subst p. assert (X : run a s0 ((pre ++ Chan t bo bi :: post) ++ [x]) = Ok s) by (rewrite run_app, R1; cbn [bind run]; rewrite ST; reflexivity).
        rewrite <- app_assoc in X. cbn [app] in X. rewrite X in RR. injection RR as <-. exact N.
      + rewrite app_assoc in E. apply app_inj_tail in E. destruct E as [E _]. apply (B p q' s' E RR). }
  destruct x as [t bo bi|fuel junk k u|u k]; cbn [astep] in ST.
  - destruct (dev_step a s1 t bo bi) as [[[s2 t'] bi']| |] eqn:DS; cbn [bind fst] in ST; try discriminate ST. injection ST as ->.
    destruct (d_st s1) eqn:D1.
    { destruct (idle_step _ _ _ _ _ _ _ _ D1 DS) as [[SEL NR]|[X _]]; [|congruence].
      exists l, t, bo, bi, [], s1. split; [reflexivity|]. split; [exact R1|]. split; [exact SEL|]. split; [intros ? ? ? []|].
      intros p q s' E RR. symmetry in E. apply app_eq_nil in E. destruct E as [-> ->]. rewrite run_app, R1 in RR. cbn [bind run astep] in RR. rewrite DS in RR. cbn in RR. injection RR as <-. exact N. }
    all: apply EXT; [congruence|]; intros t2 bo2 bi2 E RS; injection E as <- <- <-; apply (reset_idle _ _ _ _ _ _ RS) in DS; cbn in DS; congruence.
  - apply fire_st, v4_st in ST. apply EXT; [congruence|discriminate].
  - apply key_st, v4_st in ST. apply EXT; [congruence|discriminate].
Qed.

(** *** Parity *)
Lemma parity_odd9 x y : with_parity x = Ok y -> odd9 y.
Proof.
  intros H. assert (X : 0 <= x < 256).
  { unfold with_parity in H. destruct (tab odd_parity x) as [p| |] eqn:E; try discriminate H. apply tab_range in E. exact E. }
  destruct (with_parity_ok x X) as (z & E & O & _ & B). rewrite E in H. injection H as <-. split; assumption.
Qed.
Definition oddr (bi : Z) (r : res (dev * tags * Z)) : Prop := match r with Ok (_, _, b) => b = bi \/ odd9 b | _ => True end.
Lemma odd_par bi x k : (forall b, odd9 b -> oddr bi (k b)) -> oddr bi (bind (with_parity x) k).
Proof. intros K. destruct (with_parity x) eqn:E; cbn [bind oddr]; auto. apply K. apply (parity_odd9 _ _ E). Qed.
Lemma odd_par2 A bi x k (k2 : A -> _) : (forall b, odd9 b -> oddr bi (bind (k b) k2)) -> oddr bi (bind (bind (with_parity x) k) k2).
Proof. intros K. destruct (with_parity x) eqn:E; cbn [bind oddr]; auto. apply K. apply (parity_odd9 _ _ E). Qed.
Lemma odd_any A bi (r : res A) k : (forall x, oddr bi (k x)) -> oddr bi (bind r k).
Proof. destruct r; cbn; auto. Qed.
Ltac so := repeat match goal with
  | |- oddr _ (Ok _) => cbn [oddr]; auto
  | |- oddr _ (if ?b then _ else _) => destruct b
  | |- oddr _ (bind (if negb (has _ _) then _ else _) _) => destruct (negb (has _ _))
  | |- oddr _ (bind (bind (with_parity _) _) _) => apply odd_par2; intros ? ?
  | |- oddr _ (bind (Ok _) _) => cbn [bind]
  | |- oddr _ (bind (with_parity _) _) => apply odd_par; intros ? ?
  | |- oddr _ (bind _ _) => apply odd_any; intros ?
  end.
Lemma chan_odd a s t bo bi : oddr bi (dev_step a s t bo bi).
Proof.
  unfold dev_step. cbv zeta. destruct (_ && _); [left; reflexivity|]. destruct (d_st s); so.
Qed.
