From Verif Require Export D2841.Proofs7.
Open Scope Z_scope.

(** *** A control that has nothing to do *)
Lemma off_ig s m : c_r s IG = 0 -> on s IG m = false.
Proof. intros E. unfold on. rewrite E. reflexivity. Qed.
Lemma idle_dev s t bo bi : c_r s IG = 0 -> c_addrd s = false -> c_req s = false -> c_opri s = false -> c_stai s = false ->
  adro t = false \/ Z.land bo 240 <> c_addr s -> opro t || supo t = true ->
  exists s', dev s t bo bi = Ok (s', Bus.set_adri false t, bi) /\ c_addrd s' = false /\ c_sel s' = false /\ c_req s' = false /\ c_opri s' = false /\ c_stai s' = false /\ c_srvi s' = c_srvi s /\ c_svc s' = c_svc s /\
  c_wx s' = c_wx s /\ forall r, r <> ER -> c_r s' r = c_r s r.
Proof.
  intros IG0 A Q O SI N UP. rewrite dev_is, <- negb_orb, UP. cbn [negb]. unfold dev_up. cbv zeta.
  set (s0 := set_tags t (set_bo (Z.land bo 255) s)). assert (I0 : forall m, on s0 IG m = false) by (intros m; apply off_ig; exact IG0). rewrite (I0 B3).
  unfold dev_adri at 1. rewrite (I0 B7). cbn [bind]. rewrite (I0 B5). change (c_stai s0) with (c_stai s). rewrite SI. cbn [negb andb]. change (c_addrd s0) with (c_addrd s). rewrite A, andb_false_r.
  set (s1 := set_sel false s0). set (t1 := Bus.set_adri false t).
  assert (K : exists s2, dev_adro s1 t1 bo bi = Ok (s2, t1, bi) /\ c_addrd s2 = false /\ c_sel s2 = false /\ c_req s2 = false /\ c_opri s2 = false /\ c_stai s2 = false /\ c_srvi s2 = c_srvi s /\ c_svc s2 = c_svc s /\ c_wx s2 = c_wx s /\ forall r, r <> ER -> c_r s2 r = c_r s r).
  { unfold dev_adro. assert (I1 : on s1 IG B5 = false) by exact (I0 B5). rewrite I1. change (adro t1) with (adro t). destruct (adro t) eqn:AO.
    - change (c_addr s1) with (c_addr s). destruct (Z.eqb_spec (Z.land bo 240) (c_addr s)) as [E|_]; [destruct N; congruence|]. destruct (bad_parity_ok bo) as [p P]. rewrite P. cbn [bind].
      eexists. split; [reflexivity|]. destruct p; repeat split; auto; intros r NR; rewrite ?sets_other by exact NR; reflexivity.
    - eexists. split; [reflexivity|]. repeat split; auto. intros r NR. unfold clrs. rewrite setr_other by exact NR. reflexivity. }
  destruct K as (s2 & -> & K1 & K2 & K3 & K4 & K5 & K6 & K7 & K8 & K9). cbn [bind].
  assert (I2 : forall m, on s2 IG m = false) by (intros m; apply off_ig; rewrite K9 by discriminate; exact IG0).
  unfold dev_drop. rewrite (I2 B1). rewrite K4. unfold dev_req. rewrite K2. cbv zeta. rewrite !I2. cbn [andb]. rewrite ?I2. cbn [andb]. rewrite !K3. cbn [andb]. rewrite ?I2. cbn [andb]. rewrite ?K3. cbn [andb]. unfold dev_poll. rewrite K2, (I2 B5). cbn [negb andb bind]. unfold dev_data. rewrite K2, K1. cbn [orb].
  exists s2. repeat (split; [assumption || reflexivity|]). assumption.
Qed.
Lemma digit bo addr : Z.land addr 15 <> 0 -> Z.land bo 240 <> addr.
Proof. intros N E. apply N. rewrite <- E, <- Z.land_assoc. change (Z.land 240 15) with 0. apply Z.land_0_r. Qed.

(** *** A control that is addressed *)
Lemma er2 s : bit_of (c_r (sets ER (Z.shiftl 1 (7 - 2)) s) ER) 1 = bit_of (c_r s ER) 1 /\ bit_of (c_r (sets ER (Z.shiftl 1 (7 - 2)) s) ER) 2 = true /\
  bit_of (c_r (clrs ER (Z.shiftl 1 (7 - 2)) s) ER) 1 = bit_of (c_r s ER) 1 /\ bit_of (c_r (clrs ER (Z.shiftl 1 (7 - 2)) s) ER) 2 = false.
Proof. rewrite !sets_bit, !clrs_bit by lia. repeat split. Qed.
Lemma er1 s : bit_of (c_r (sets ER (Z.shiftl 1 (7 - 1)) s) ER) 1 = true. Proof. rewrite sets_bit by lia. reflexivity. Qed.
Lemma addressed_dev s t bo bi : c_r s IG = 0 -> c_addrd s = false -> c_req s = false -> c_opri s = false -> c_stai s = false -> c_svc s = false -> c_srvi s = false ->
  adro t = true -> Z.land bo 240 = c_addr s -> opro t || supo t = true ->
  exists s', dev s t bo bi = Ok (s', Bus.set_stai false (Bus.set_srvi false (Bus.set_adri false (Bus.set_selo false t))), bi) /\ c_addrd s' = true /\ c_bo s' = Z.land bo 255 /\ bit_of (c_r s' ER) 1 = true /\
  (bad_parity bo = Ok (bit_of (c_r s' ER) 2)) /\ c_wx s' = c_wx s /\ forall r, r <> ER -> c_r s' r = c_r s r.
Proof.
  intros IG0 A Q O SI SV SR AO AD UP. rewrite dev_is, <- negb_orb, UP. cbn [negb]. unfold dev_up. cbv zeta.
  set (s0 := set_tags t (set_bo (Z.land bo 255) s)). assert (I0 : forall m, on s0 IG m = false) by (intros m; apply off_ig; exact IG0). rewrite (I0 B3).
  unfold dev_adri at 1. rewrite (I0 B7). cbn [bind]. rewrite (I0 B5). change (c_stai s0) with (c_stai s). rewrite SI. cbn [negb andb]. change (c_addrd s0) with (c_addrd s). rewrite A, andb_false_r.
  set (s1 := set_sel false s0). set (t1 := Bus.set_adri false t). destruct (bad_parity_ok bo) as [p P].
  assert (K : exists s2, dev_adro s1 t1 bo bi = Ok (s2, t1, bi) /\ c_addrd s2 = true /\ c_sel s2 = false /\ c_req s2 = false /\ c_opri s2 = false /\ c_svc s2 = false /\ c_srvi s2 = false /\ c_bo s2 = Z.land bo 255 /\ c_wx s2 = c_wx s /\ (forall r, r <> ER -> c_r s2 r = c_r s r) /\ bit_of (c_r s2 ER) 1 = true).
  { unfold dev_adro. change (adro t1) with (adro t). rewrite AO. change (c_addr s1) with (c_addr s). rewrite AD, Z.eqb_refl. assert (I1 : on s1 IG B5 = false) by exact (I0 B5). rewrite I1, P. cbn [bind]. change B1 with (Z.shiftl 1 (7 - 1)). change B2 with (Z.shiftl 1 (7 - 2)).
    eexists. split; [reflexivity|]. destruct p; repeat split; auto.
    - intros r NR. rewrite !sets_other by exact NR. reflexivity.
    - rewrite (proj1 (er2 _)). apply er1.
    - intros r NR. rewrite !sets_other by exact NR. reflexivity.
    - apply er1. }
  destruct K as (s2 & -> & K1 & K2 & K3 & K4 & K5 & K6 & K7 & K8 & K9 & K10). cbn [bind].
  assert (I2 : forall m, on s2 IG m = false) by (intros m; apply off_ig; rewrite K9 by discriminate; exact IG0).
  unfold dev_drop. rewrite (I2 B1). rewrite K4. unfold dev_req. rewrite K2. cbv zeta. rewrite !I2. cbn [andb]. rewrite ?I2. cbn [andb]. rewrite !K3. cbn [andb]. rewrite ?I2. cbn [andb]. rewrite ?K3. cbn [andb]. unfold dev_poll. rewrite K2, (I2 B5). cbn [negb andb bind]. unfold dev_data. rewrite K2, K1. cbn [orb].
  rewrite (I2 B7). cbn [bind]. rewrite P. cbn [bind]. set (s3 := if p then sets ER B2 s2 else clrs ER B2 s2).
  assert (R3 : (forall r, r <> ER -> c_r s3 r = c_r s2 r) /\ bit_of (c_r s3 ER) 1 = true /\ bit_of (c_r s3 ER) 2 = p /\ c_svc s3 = c_svc s2 /\ c_srvi s3 = c_srvi s2 /\ c_addrd s3 = c_addrd s2 /\ c_bo s3 = c_bo s2 /\ c_wx s3 = c_wx s2).
  { unfold s3. change B2 with (Z.shiftl 1 (7 - 2)). destruct p; (split; [intros r NR; rewrite ?sets_other, ?clrs_other by exact NR; reflexivity|]).
    - destruct (er2 s2) as (X1 & X2 & _). rewrite X1, X2, K10. repeat (split; [reflexivity|]). reflexivity.
    - destruct (er2 s2) as (_ & _ & X1 & X2). rewrite X1, X2, K10. repeat (split; [reflexivity|]). reflexivity. }
  destruct R3 as (R1 & R2 & R3 & R4 & R5 & R6 & R7 & R8). clearbody s3.
  assert (I3 : forall m, on s3 IG m = false) by (intros m; apply off_ig; rewrite R1, K9 by discriminate; exact IG0).
  cbv zeta. set (s4 := set_tr2 (c_svc s3) s3). change (c_srvi s4) with (c_srvi s3). rewrite R5, K6. rewrite (I3 B2 : on s4 IG B2 = false), (I3 B0 : on s4 IG B0 = false). cbn [andb orb]. change (c_tr2 s4) with (c_svc s3). rewrite R4, K5. cbn [bind]. change (c_srvi s4) with (c_srvi s3). rewrite R5, K6. cbn [negb orb]. rewrite orb_true_r. cbn [orb].
  set (s5 := set_tr1 false (set_srvi false s4)). rewrite (I3 B5 : on s5 IG B5 = false). eexists. split; [reflexivity|].
  split; [exact (eq_trans R6 K1)|]. split; [exact (eq_trans R7 K7)|]. split; [exact R2|]. split; [f_equal; symmetry; exact R3|]. split; [exact (eq_trans R8 K8)|]. intros r NR. change (c_r s3 r = c_r s r). rewrite R1, K9 by exact NR. reflexivity.
Qed.

(** *** A control with status to present *)
Lemma busy_dev s t bo bi : c_r s IG = 4 -> c_addrd s = false -> c_req s = false -> c_opri s = false ->
  adro t = true -> srvo t = false -> Z.land bo 240 = c_addr s -> opro t || supo t = true ->
  exists s', dev s t bo bi = Ok (s', Bus.set_selo false (Bus.set_stai true (Bus.set_adri false t)), Z.lor 256 (Z.lor SNS_SMS SNS_BSY)) /\ c_addrd s' = false /\ c_stai s' = true /\ c_wx s' = c_wx s /\ forall r, r <> ER -> c_r s' r = c_r s r.
Proof.
  intros IG4 A Q O AO SO AD UP. rewrite dev_is, <- negb_orb, UP. cbn [negb]. unfold dev_up. cbv zeta.
  set (s0 := set_tags t (set_bo (Z.land bo 255) s)).
  assert (I0 : forall x, c_r x IG = 4 -> on x IG B3 = false /\ on x IG B7 = false /\ on x IG B5 = true /\ on x IG B1 = false /\ on x IG B6 = false /\ on x IG B4 = false) by (intros x E; unfold on; rewrite E; repeat split; reflexivity).
  destruct (I0 s0 IG4) as (J3 & J7 & J5 & J1 & J6 & J4). rewrite J3. unfold dev_adri at 1. rewrite J7. cbn [bind]. rewrite J5. cbn [negb andb]. change (c_addrd s0) with (c_addrd s). rewrite A, andb_false_r.
  set (s1 := set_sel false s0). set (t1 := Bus.set_adri false t). destruct (bad_parity_ok bo) as [p P].
  assert (K : exists s2, dev_adro s1 t1 bo bi = Ok (s2, Bus.set_selo false (Bus.set_stai true t1), 336) /\ c_addrd s2 = false /\ c_sel s2 = false /\ c_req s2 = false /\ c_opri s2 = false /\ c_stai s2 = true /\ c_wx s2 = c_wx s /\ (forall r, r <> ER -> c_r s2 r = c_r s r)).
  { unfold dev_adro. change (adro t1) with (adro t). rewrite AO. change (c_addr s1) with (c_addr s). rewrite AD, Z.eqb_refl. assert (I1 : on s1 IG B5 = true) by exact J5. rewrite I1, P. cbn [bind].
    eexists. split; [reflexivity|]. destruct p; repeat split; auto; intros r NR; rewrite ?sets_other by exact NR; reflexivity. }
  destruct K as (s2 & -> & K1 & K2 & K3 & K4 & K5 & K6 & K9). cbn [bind].
  destruct (I0 s2) as (L3 & L7 & L5 & L1 & L6 & L4); [rewrite K9 by discriminate; exact IG4|].
  set (t2 := Bus.set_selo false (Bus.set_stai true t1)). unfold dev_drop. rewrite L1. rewrite K4. unfold dev_req. rewrite K2. cbv zeta. rewrite L6. rewrite L4. cbn [andb]. rewrite K3, L5. change (stai t2) with true. change (srvo t2) with (srvo t). rewrite SO. cbn [andb]. rewrite ?K3. cbn [andb]. unfold dev_poll. rewrite K2, L5. change (selo t2) with false. cbn [negb andb bind]. unfold dev_data. rewrite K2, K1. cbn [orb].
  exists s2. repeat (split; [assumption || reflexivity|]). assumption.
Qed.

(** *** Microprograms for examples *)
Definition nop := mkMi 0 0 0 0 0 0 0 0 0 0 0.
(** IG := k, and on at address n; the bus is read, and on at address n. *)
Definition to_ig (k n : Z) := mkMi 0 2 k 0 0 n 15 0 0 0 0.
Definition from_bus (n : Z) := mkMi 15 0 0 0 0 n 0 0 0 0 0.
Definition ros1 (k w : Z) : mi := if w =? 0 then to_ig k 4 else from_bus 4.
Lemma ros1_good k w : is_byte k -> good_mi (ros1 k w).
Proof. intros K. unfold ros1, good_mi, to_ig, from_bus, is_byte in *. destruct (w =? 0); cbn; lia. Qed.
(** The tags the channel drives: SELECT OUT, ADDRESS OUT, SERVICE OUT, OPERATIONAL OUT; then ADDRESS IN, OPERATIONAL IN, SERVICE IN. *)
Definition lines (sel adr srv opr oi ai si : bool) := mkT sel adr false srv false false opr oi ai false si false.

(** *** Controls for examples *)
Definition two_drives := put_disk 2 (new_drive T2311) (put_disk 5 (new_drive T2314) (new_ctrl 144)).
Definition sender := setr IG 1 (setr DW 145 (new_ctrl 144)).
Lemma sender_ok : ctx_ok sender.
Proof.
  destruct (new_ok 144) as (R & X). split; [|exact X]. intros r. unfold sender, setr at 1. cbn [c_r set_r]. apply put_byte; [apply byte_c; reflexivity|]. intros x. unfold setr. cbn [c_r set_r]. apply put_byte; [apply byte_c; reflexivity|exact R].
Qed.
Definition is_ok (r : res bus) (f : ctx -> tags -> Z -> bool) : bool := match r with Ok (s, t, b) => f s t b | _ => false end.
