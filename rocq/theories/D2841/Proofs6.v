From Verif Require Export D2841.Proofs5.
Open Scope Z_scope.

(** *** A step *)
Lemma seq_lt i : In i (seq 0 8) -> (i < 8)%nat.
Proof. intros H. apply in_seq in H. lia. Qed.
Lemma drives_ok s s1 : ctx_ok s -> drives s = Ok s1 -> round_facts (setr SC 0 s) s1 (seq 0 8) /\ ctx_ok s1 /\ c_wx s1 = c_wx s /\ c_cur s1 = c_cur s.
Proof.
  intros (R & OA & OB & OL & OBO & OW & LEN & CU) H. unfold drives in H.
  assert (F : round_facts (setr SC 0 s) s1 (seq 0 8)).
  { apply drives_from_ok; [intros r; apply put_byte; [apply byte_c; reflexivity|exact R]|apply seq_NoDup|exact seq_lt|exact LEN|exact H]. }
  split; [exact F|]. destruct F as [(f & dk & F0) F1 F2 F3 F4 F5 F6 F7 F8 F9 F10 F11 F12].
  assert (Q : c_a s1 = c_a s /\ c_b s1 = c_b s /\ c_alu s1 = c_alu s /\ c_bo s1 = c_bo s /\ c_wx s1 = c_wx s /\ c_cur s1 = c_cur s) by (rewrite F0; repeat split; reflexivity).
  destruct Q as (Q1 & Q2 & Q3 & Q4 & Q5 & Q6). split; [|split; assumption]. unfold ctx_ok. rewrite Q1, Q2, Q3, Q4, Q5. split; [exact F8|]. repeat split; try apply OA; try apply OB; try apply OL; try apply OBO; try apply OW; [rewrite F9; exact LEN|].
  unfold cur_ok in *. rewrite Q6. destruct (c_cur s) as [i|]; [|exact I]. destruct CU as [d CU]. destruct (F10 i d) as (d' & D' & _); [|exact CU|eauto].
  apply in_seq. pose proof (nth_lt _ _ _ CU). lia.
Qed.
Lemma step_split ros s s' : (forall w, good_mi (ros w)) -> ctx_ok s -> step ros s = Ok s' ->
  exists s1, drives s = Ok s1 /\ ctx_ok s1 /\ c_wx s1 = c_wx s /\ c_cur s1 = c_cur s /\ round_facts (setr SC 0 s) s1 (seq 0 8) /\ micro s1 (ros (c_wx s)) = Ok s' /\ micro_facts s1 s' (ros (c_wx s)).
Proof.
  intros G OK H. unfold step in H. destruct (drives s) as [s1| |] eqn:D; try discriminate. cbn [bind] in H. destruct (drives_ok s s1 OK D) as (F & OK1 & W & C). exists s1.
  unfold fetch in H. rewrite W in H. assert (E : (0 <=? c_wx s) && (c_wx s <? 4096) = true) by (destruct OK as (_ & _ & _ & _ & _ & OW & _); apply andb_true_iff; split; [apply Z.leb_le|apply Z.ltb_lt]; lia).
  rewrite E in H. cbn [bind] in H. repeat (split; [assumption || reflexivity|]). apply micro_ok; auto.
Qed.
(** Only an operation of a drive can be undefined. *)
Definition drive_fails (s : ctx) : Prop := exists i d l, nth_error (c_disk s) i = Some (Some d) /\ Forall op_bytes l /\ forall y, do_ops d l <> Ok y.
Lemma op_ok_fails d o : (forall y, do_op d o <> Ok y) -> forall y, do_ops d [o] <> Ok y.
Proof. intros N y H. cbn in H. destruct (do_op d o) eqn:E; try discriminate. eapply N. reflexivity. Qed.
Lemma drive_op_bytes s i : regs_ok s -> op_bytes (drive_op s i).
Proof.
  intros R. assert (N : forall b, is_byte (num b)) by (intros [|]; apply byte_c; reflexivity). assert (Z0 : is_byte 0) by (apply byte_c; reflexivity).
  unfold drive_op. destruct (connected s i); [|exact I]. destruct (bit_of (c_r s FC) 1); [repeat split; apply Z0|]. destruct (bit_of (c_r s FC) 0); [|exact I]. split; [apply R|]. split; [apply N|exact Z0].
Qed.
Lemma middle_def s i d : regs_ok s -> (i < 8)%nat -> (exists s1, middle s i d = Ok s1) \/ (forall y, do_op d (drive_op s i) <> Ok y).
Proof.
  intros R I. unfold middle. rewrite gated_is by assumption. unfold drive_op. destruct (connected s i); [|left; eauto].
  change 64 with (Z.shiftl 1 (7 - 1)). change 128 with (Z.shiftl 1 (7 - 0)). rewrite !on_bit by lia. destruct (bit_of (c_r s FC) 1).
  - destruct (dasd_read_byte d 0 0 0) as [x| |] eqn:X; cbn [bind]; [left; eauto| |]; right; intros y; cbn; rewrite X; discriminate.
  - destruct (bit_of (c_r s FC) 0); [|left; cbn [bind]; eauto]. rewrite last_bit by apply R. destruct (dasd_write_byte d (c_r s DR) (num (bit_of (c_r s FC) 7)) 0) as [x| |] eqn:X; cbn [bind]; [left; eauto| |]; right; intros y; unfold do_op; rewrite X; discriminate.
Qed.
Lemma one_drive_def s i : regs_ok s -> (i < 8)%nat -> length (c_disk s) = 8%nat -> (exists s', one_drive s i = Ok s') \/ drive_fails s.
Proof.
  intros R I LEN. destruct (nth_error (c_disk s) i) as [[d|]|] eqn:D.
  - rewrite (one_drive_is s i d D). destruct (middle_def s i d R I) as [[s1 M]|N].
    + rewrite M. cbn [bind]. destruct (middle_ok s i d s1 R I M) as (d' & MF). destruct MF as [(f & M0) _ _ _ _ _ _ _ _ _]. assert (D1 : c_disk s1 = set_nth i (Some d') (c_disk s)) by (rewrite M0; reflexivity). rewrite D1, nth_set, Nat.eqb_refl by lia. left. eauto.
    + right. exists i, d, [drive_op s i]. split; [exact D|]. split; [constructor; [apply drive_op_bytes; exact R|constructor]|]. apply op_ok_fails. exact N.
  - left. unfold one_drive. rewrite D. eauto.
  - left. unfold one_drive. rewrite D. eauto.
Qed.
Lemma drives_from_def l : forall s, regs_ok s -> NoDup l -> (forall i, In i l -> (i < 8)%nat) -> length (c_disk s) = 8%nat -> (exists s', drives_from l s = Ok s') \/ drive_fails s.
Proof.
  induction l as [|i l IH]; intros s R ND LT LEN; [left; cbn; eauto|]. cbn [drives_from]. destruct (one_drive_def s i R (LT i (or_introl eq_refl)) LEN) as [[s1 E]|]; [|right; assumption]. rewrite E. cbn [bind].
  pose proof (one_drive_ok s i s1 R (LT i (or_introl eq_refl)) LEN E) as F. inversion ND as [|? ? NI ND']; subst. destruct (IH s1) as [X|X]; [apply (rf_ok _ _ _ F)|exact ND'|intros j J; apply LT; right; exact J|rewrite (rf_len _ _ _ F); exact LEN|left; exact X|].
  destruct X as (j & d & ops & DJ & B & NO). destruct (Nat.eq_dec j i) as [->|NE].
  - destruct (nth_error (c_disk s) i) as [[d0|]|] eqn:D0.
    + destruct (rf_in _ _ _ F i d0 (or_introl eq_refl) D0) as (d' & D' & O & _). rewrite DJ in D'. injection D' as <-. right. exists i, d0, (drive_op s i :: ops). split; [exact D0|]. split; [constructor; [apply drive_op_bytes; exact R|exact B]|]. intros y. cbn [do_ops]. rewrite O. cbn [bind]. apply NO.
    + destruct (rf_none _ _ _ F i (or_introl eq_refl) D0) as (D' & _). congruence.
    + apply nth_error_None in D0. specialize (LT i (or_introl eq_refl)). lia.
  - destruct (rf_out _ _ _ F j) as (D' & _); [intros [->|[]]; congruence|]. rewrite D' in DJ. right. exists j, d, ops. auto.
Qed.
Lemma dest_def s m : regs_ok s -> is_byte (c_alu s) -> cur_ok s -> (exists s2, dest s m = Ok s2) \/ exists i d l, nth_error (c_disk s) i = Some (Some d) /\ Forall is_tag l /\ forall y, do_ops d l <> Ok y.
Proof.
  intros R AL CU. unfold dest. destruct (CD m =? 10); [left; eauto|].
  assert (T : forall r b, (exists s2, to_drive (tag_reg r s m) b = Ok s2) \/ exists i d l, nth_error (c_disk s) i = Some (Some d) /\ Forall is_tag l /\ forall y, do_ops d l <> Ok y).
  { intros r b. destruct (to_drive_ub (tag_reg r s m) b) as [X|(i & d & l & _ & X)]; [intros x; apply put_byte; [apply (tag_new m (c_r s r) (c_alu s) (R r) AL)|exact R]|exact CU|left; exact X|right; exists i, d, l; exact X]. }
  destruct (CD m =? 13); [apply T|]. destruct (CD m =? 14); [apply T|]. destruct (CD m =? 15); [left; eauto|]. destruct (d_reg (CD m)); left; eauto.
Qed.
Lemma tag_bytes l : Forall is_tag l -> Forall op_bytes l.
Proof. intros H. eapply Forall_impl; [|exact H]. intros [| | | | |]; cbn; tauto. Qed.
Lemma micro_def s m : ctx_ok s -> good_mi m -> (exists s', micro s m = Ok s') \/ drive_fails s.
Proof.
  intros OK G. pose proof OK as (R & OA & OB & OL & OBO & OW & LEN & CU). unfold micro. rewrite (cur_selected s CU). cbn [bind]. set (d := selected s). set (s1 := set_b (bbus s m) s).
  assert (OK1 : ctx_ok s1).
  { destruct (alu_ok s m 0 OK G ltac:(apply byte_c; reflexivity)) as (_ & _ & FB). unfold final_b in FB. repeat split; try apply R; try apply OA; try apply OL; try apply OBO; try apply OW; try apply LEN; try apply CU; unfold s1; cbn [c_b set_b]; revert FB; unfold is_byte; destruct (CV m =? 0); lia. }
  destruct (abus_form s1 d m OK1 G) as (a & t & v & EA & AB & _). rewrite EA. clear EA. destruct (alu_ok s m a OK G AB) as (_ & OB2 & _). unfold final_b in *. cbv zeta.
  set (s2 := set_a a (set_tr1 t (set_srvi v s1))). change (c_b s2) with (bbus s m). set (b := if CV m =? 0 then bbus s m else 255 - bbus s m) in *.
  assert (E3 : (if CV m =? 0 then s2 else set_b (255 - bbus s m) s2) = set_b b s2) by (unfold b; destruct (CV m =? 0); [unfold s2, s1; destruct s; reflexivity|reflexivity]).
  rewrite E3. change (c_a (set_b b s2)) with a. change (c_b (set_b b s2)) with b. change (carry_in (set_b b s2) (CC m)) with (carry_in s (CC m)). set (o := alu a b (carry_in s (CC m)) (CC m)) in *.
  match goal with |- context [dest ?x m] => set (s4 := x) end.
  assert (XB : is_byte (c_alu s4)) by (unfold s4; cbn [c_alu set_alu c_a set_carry set_nz set_b]; unfold s2; cbn [c_a set_a]; destruct (BP m =? 0); assumption).
  destruct (dest_def s4 m R XB CU) as [[s5 E]|(i & dd & l & D & T & N)].
  - left. rewrite E. cbn [bind]. eauto.
  - right. exists i, dd, l. split; [exact D|]. split; [apply tag_bytes; exact T|exact N].
Qed.
Lemma step_def ros s : (forall w, good_mi (ros w)) -> ctx_ok s -> (exists s', step ros s = Ok s') \/ drive_fails s.
Proof.
  intros G OK. pose proof OK as (R & OA & OB & OL & OBO & OW & LEN & CU). unfold step.
  destruct (drives_from_def (seq 0 8) (setr SC 0 s)) as [[s1 E]|X]; [intros r; apply put_byte; [apply byte_c; reflexivity|exact R]|apply seq_NoDup|exact seq_lt|exact LEN| |right; exact X].
  change (drives_from (seq 0 8) (setr SC 0 s)) with (drives s) in E. rewrite E. cbn [bind]. destruct (drives_ok s s1 OK E) as (F & OK1 & W & C).
  unfold fetch. rewrite W. assert (EQ : (0 <=? c_wx s) && (c_wx s <? 4096) = true) by (apply andb_true_iff; split; [apply Z.leb_le|apply Z.ltb_lt]; lia). rewrite EQ. cbn [bind].
  destruct (micro_def s1 (ros (c_wx s)) OK1 (G _)) as [X|(i & d & ops & D & B & N)]; [left; exact X|right].
  assert (I : (i < 8)%nat) by (pose proof (nth_lt _ _ _ D); destruct OK1 as (_ & _ & _ & _ & _ & _ & L1 & _); lia).
  assert (IN : In i (seq 0 8)) by (apply in_seq; lia).
  destruct (nth_error (c_disk s) i) as [[d0|]|] eqn:D0.
  - destruct (rf_in _ _ _ F i d0 IN D0) as (d' & D' & O & _). rewrite D in D'. injection D' as <-. exists i, d0, (drive_op (setr SC 0 s) i :: ops). split; [exact D0|]. split; [constructor; [apply drive_op_bytes; intros r; apply put_byte; [apply byte_c; reflexivity|exact R]|exact B]|]. intros y. cbn [do_ops]. rewrite O. cbn [bind]. apply N.
  - destruct (rf_none _ _ _ F i IN D0) as (D' & _). congruence.
  - apply nth_error_None in D0. lia.
Qed.
(** The unit that gets selected. *)
Lemma first_unit_ok n : forall i u, (i + n = 8)%nat -> is_byte u -> match first_unit n i u with
  | Some k => (i <= k < 8)%nat /\ bit_of u (Z.of_nat k) = true /\ forall j, (i <= j < k)%nat -> bit_of u (Z.of_nat j) = false
  | None => forall j, (i <= j < 8)%nat -> bit_of u (Z.of_nat j) = false end.
Proof.
  induction n as [|n IH]; intros i u E U; cbn [first_unit]; [intros j J; lia|]. rewrite unit_mask by lia. pose proof (on_bit (setr GL u (new_ctrl 0)) GL (Z.of_nat i) ltac:(lia)) as Q. unfold on in Q. rewrite setr_same in Q. rewrite Q.
  destruct (bit_of u (Z.of_nat i)) eqn:B.
  - split; [lia|]. split; [exact B|]. intros j J. lia.
  - specialize (IH (S i) u ltac:(lia) U). destruct (first_unit n (S i) u) as [k|].
    + destruct IH as (A1 & A2 & A3). split; [lia|]. split; [exact A2|]. intros j J. destruct (Nat.eq_dec j i) as [->|]; [exact B|]. apply A3. lia.
    + intros j J. destruct (Nat.eq_dec j i) as [->|]; [exact B|]. apply IH. lia.
Qed.
Lemma select_ok s : is_byte (c_r s UR) -> forall i, first_on (c_r s UR) i -> c_cur (select s) = match nth_error (c_disk s) i with Some (Some _) => Some i | _ => None end.
Proof.
  intros U i (I & B & F). unfold select. pose proof (first_unit_ok 8 0 (c_r s UR) eq_refl U) as H. destruct (first_unit 8 0 (c_r s UR)) as [k|].
  - destruct H as (K & BK & FK). destruct (Nat.lt_trichotomy i k) as [L|[->|L]].
    + rewrite FK in B by lia. discriminate.
    + reflexivity.
    + rewrite F in BK by exact L. discriminate.
  - rewrite H in B by lia. discriminate.
Qed.
