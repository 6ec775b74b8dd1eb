From Verif Require Export D2841.Proofs6.
Open Scope Z_scope.

(** *** The connection to the channel *)
(** The part of the state the channel has nothing to do with. *)
Definition inner (s : ctx) := (c_a s, c_b s, c_alu s, c_carry s, c_nz s, c_index s, (c_cur s, c_unit s, c_disk s, c_addr s), (c_bo s, c_tags s)).
Record dv (s : ctx) (t : tags) (bi : Z) (s' : ctx) (t' : tags) (bi' : Z) : Prop := {
  dv_inner : inner s' = inner s /\ c_wx s' = c_wx s;
  dv_regs : forall r, r <> ER -> r <> IG -> c_r s' r = c_r s r;
  dv_ig : forall k, 0 <= k < 8 -> bit_of (c_r s' IG) k = bit_of (c_r s IG) k \/ (k = 1 /\ bit_of (c_r s' IG) k = false);
  dv_ok : regs_ok s -> regs_ok s';
  dv_out : out_lines t t';
  dv_bus : bi' = bi \/ bus_value s bi';
  dv_adr : adri t' = true -> adri t = true \/ bus_value s bi';
  dv_sta : stai t' = true -> stai t = true \/ bus_value s bi';
  dv_srv : srvi t' = true -> srvi t = true \/ bus_value s bi' }.
Lemma dv_trans s t b s1 t1 b1 s2 t2 b2 : dv s t b s1 t1 b1 -> dv s1 t1 b1 s2 t2 b2 -> dv s t b s2 t2 b2.
Proof.
  intros [[A1 A1'] A2 A3 A4 A5 A6 A7 A8 A9] [[B1 B1'] B2 B3 B4 B5 B6 B7 B8 B9].
  assert (V : forall x, bus_value s1 x -> bus_value s x) by (unfold bus_value; rewrite (A2 DW) by discriminate; auto).
  assert (VV : bus_value s b1 -> bus_value s b2) by (intros X; destruct B6 as [->|B6]; auto).
  split.
  - split; congruence.
  - intros r N1 N2. rewrite B2, A2 by assumption. reflexivity.
  - intros k K. destruct (B3 k K) as [->|B]; [apply A3; exact K|right; exact B].
  - auto.
  - unfold out_lines in *. destruct A5 as (C1 & C2 & C3 & C4 & C5 & C6 & C7), B5 as (D1 & D2 & D3 & D4 & D5 & D6 & D7). repeat split; congruence || auto.
  - destruct B6 as [->|B6]; [exact A6|right; apply V; exact B6].
  - intros X. destruct (B7 X) as [Y|Y]; [destruct (A7 Y) as [W|W]; [left; exact W|right; apply VV; exact W]|right; apply V; exact Y].
  - intros X. destruct (B8 X) as [Y|Y]; [destruct (A8 Y) as [W|W]; [left; exact W|right; apply VV; exact W]|right; apply V; exact Y].
  - intros X. destruct (B9 X) as [Y|Y]; [destruct (A9 Y) as [W|W]; [left; exact W|right; apply VV; exact W]|right; apply V; exact Y].
Qed.
(** A change of the latches and of tags that go down or do not come with a byte. *)
Lemma dv_plain s t b s' t' : inner s' = inner s -> c_wx s' = c_wx s -> c_r s' = c_r s -> out_lines t t' -> (adri t' = true -> adri t = true) -> (stai t' = true -> stai t = true) -> (srvi t' = true -> srvi t = true) -> dv s t b s' t' b.
Proof. intros I W R O A S V. split; auto; try (rewrite R; auto). intros K r. rewrite R. apply K. Qed.
Lemma out_refl t : out_lines t t. Proof. unfold out_lines. tauto. Qed.
Lemma dv_refl s t b : dv s t b s t b.
Proof. apply dv_plain; auto using out_refl. Qed.
(** A byte goes on the bus. *)
Lemma dv_byte s t b s' t' b' : inner s' = inner s -> c_wx s' = c_wx s -> c_r s' = c_r s -> out_lines t t' -> bus_value s b' -> dv s t b s' t' b'.
Proof. intros I W R O V. split; auto; try (rewrite R; auto). intros K r. rewrite R. apply K. Qed.
(** A bit of the error register. *)
Lemma dv_er s t b v : (regs_ok s -> is_byte v) -> dv s t b (setr ER v s) t b.
Proof.
  intros V. split; auto using out_refl.
  - intros r N _. apply setr_other. exact N.
  - intros R r. apply put_byte; auto.
Qed.
Lemma dv_sets s t b k : 0 <= k < 8 -> dv s t b (sets ER (Z.shiftl 1 (7 - k)) s) t b.
Proof. intros K. apply dv_er. intros R. apply byte_lor; [apply R|apply mask_byte; exact K]. Qed.
Lemma dv_clrs s t b k : 0 <= k < 8 -> dv s t b (clrs ER (Z.shiftl 1 (7 - k)) s) t b.
Proof. intros K. apply dv_er. intros R. apply byte_land; [pose proof (R ER) as Q; unfold is_byte in Q; lia|apply in_byte; apply mask_byte; exact K]. Qed.
Lemma dw_ok s : is_byte (c_r s DW) -> exists b, dw_out s = Ok b /\ bus_value s b.
Proof. intros D. destruct (with_parity_ok (c_r s DW) D) as (b & E & P & L & R). exists b. split; [exact E|]. split; [exact P|]. split; [exact R|]. left. exact L. Qed.

Definition good (f : res bus) (s : ctx) (t : tags) (b : Z) : Prop := exists s' t' b', f = Ok (s', t', b') /\ dv s t b s' t' b'.
Lemma good_adri s t b : is_byte (c_r s DW) -> good (dev_adri s t b) s t b.
Proof.
  intros D. unfold dev_adri, good. destruct (on s IG B7).
  - destruct (dw_ok s D) as (x & E & V). rewrite E. cbn [bind]. eexists _, _, _. split; [reflexivity|]. apply dv_byte; try reflexivity; [|exact V]. destruct t; unfold out_lines; cbn; tauto.
  - eexists _, _, _. split; [reflexivity|]. apply dv_plain; try reflexivity; auto; [destruct t; unfold out_lines; cbn; tauto|discriminate].
Qed.
Lemma good_adro s t bo b : good (dev_adro s t bo b) s t b.
Proof.
  unfold dev_adro, good. destruct (adro t).
  - assert (Q : exists s1 t1 b1, (if Z.land bo 240 =? c_addr s then if on s IG B5 then (sets ER (Z.lor B3 B7) (set_stai true s), Bus.set_selo false (Bus.set_stai true t), 336) else (sets ER B1 (set_addrd true s), t, b) else (set_addrd false s, t, b)) = (s1, t1, b1) /\ dv s t b s1 t1 b1).
    { destruct (Z.land bo 240 =? c_addr s); [destruct (on s IG B5)|]; eexists _, _, _; (split; [reflexivity|]).
      - eapply dv_trans; [|apply dv_er; intros R; apply byte_lor; [apply R|apply byte_c; reflexivity]]. apply dv_byte; try reflexivity; [destruct t; unfold out_lines; cbn; repeat split; discriminate|]. split; [reflexivity|]. split; [lia|]. right. reflexivity.
      - eapply dv_trans; [|apply (dv_sets _ _ _ 1); lia]. apply dv_plain; try reflexivity; auto using out_refl.
      - apply dv_plain; try reflexivity; auto using out_refl. }
    destruct Q as (s1 & t1 & b1 & E & V). rewrite E. destruct (bad_parity_ok bo) as [p P]. rewrite P. cbn [bind]. eexists _, _, _. split; [reflexivity|]. eapply dv_trans; [exact V|]. destruct p; [apply (dv_sets _ _ _ 2); lia|apply dv_refl].
  - eexists _, _, _. split; [reflexivity|]. eapply dv_trans; [|apply (dv_clrs _ _ _ 1); lia]. apply dv_plain; try reflexivity; destruct (on s IG B5); auto using out_refl; try (destruct t; unfold out_lines; cbn; tauto). discriminate.
Qed.
Lemma good_drop s t b : dv s t b (fst (dev_drop s t)) (snd (dev_drop s t)) b.
Proof.
  unfold dev_drop. destruct (on s IG B1); [|apply dv_refl]. cbn [fst snd]. eapply dv_trans; [|apply (dv_clrs _ _ _ 7); lia].
  set (s1 := set_srvi false _). split; auto; try discriminate.
  - intros r N1 N2. unfold clrs. rewrite setr_other by exact N2. reflexivity.
  - intros k K. change B1 with (Z.shiftl 1 (7 - 1)). rewrite clrs_bit by lia. change (c_r s1) with (c_r s). destruct (Z.eqb_spec k 1); [right; auto|left; reflexivity].
  - intros R. apply (clrs_ok IG 1); [lia|exact R].
  - destruct t; unfold out_lines; cbn; tauto.
Qed.
Lemma good_req s t b : dv s t b (fst (dev_req s t)) (snd (dev_req s t)) b.
Proof.
  unfold dev_req.
  assert (Q : forall s1 t1, dv s t b s1 t1 b -> dv s t b (fst (if c_req s1 && reqi t1 && selo t1 && negb (supo t1) then (set_sel true (set_req false s1), Bus.set_reqi false t1) else (s1, t1))) (snd (if c_req s1 && reqi t1 && selo t1 && negb (supo t1) then (set_sel true (set_req false s1), Bus.set_reqi false t1) else (s1, t1))) b).
  { intros s1 t1 V. destruct (c_req s1 && reqi t1 && selo t1 && negb (supo t1)); [|exact V]. eapply dv_trans; [exact V|]. apply dv_plain; try reflexivity; auto. destruct t1; unfold out_lines; cbn; tauto. }
  destruct (c_sel s); [apply Q; apply dv_refl|]. cbv zeta. apply Q. apply dv_plain; try (ifs; reflexivity).
  - ifs; destruct t; unfold out_lines; cbn; tauto.
  - ifs; destruct t; cbn; auto.
  - ifs; destruct t; cbn; auto; discriminate.
  - ifs; destruct t; cbn; auto.
Qed.
Lemma good_poll s t b : is_byte (c_r s DW) -> good (dev_poll s t b) s t b.
Proof.
  intros D. unfold dev_poll, good. destruct (negb (c_sel s) && on s IG B5 && selo t && reqi t && negb (adro t)); [|eexists _, _, _; split; [reflexivity|apply dv_refl]].
  destruct (dw_ok s D) as (x & E & V). rewrite E. cbn [bind]. eexists _, _, _. split; [reflexivity|]. apply dv_byte; try reflexivity; [|exact V]. destruct t; unfold out_lines; cbn; repeat split; discriminate.
Qed.
Lemma good_data s t bo b : is_byte (c_r s DW) -> good (dev_data s t bo b) s t b.
Proof.
  intros D. unfold dev_data, good. destruct (c_sel s || c_addrd s); [|eexists _, _, _; split; [reflexivity|apply dv_refl]].
  destruct (dw_ok s D) as (x & E & V).
  assert (Q : exists s1 b1 t1, (if on s IG B7 then let* b := dw_out s in Ok (set_tr1 false (set_opri true s), Bus.set_adri true (Bus.set_selo false t), b) else Ok (s, Bus.set_adri false (Bus.set_selo false t), b)) = Ok (s1, t1, b1) /\ dv s t b s1 t1 b1 /\ c_r s1 = c_r s).
  { destruct (on s IG B7).
    - rewrite E. cbn [bind]. eexists _, _, _. split; [reflexivity|]. split; [|reflexivity]. apply dv_byte; try reflexivity; [|exact V]. destruct t; unfold out_lines; cbn; repeat split; discriminate.
    - eexists _, _, _. split; [reflexivity|]. split; [|reflexivity]. apply dv_plain; try reflexivity; auto; [destruct t; unfold out_lines; cbn; repeat split; discriminate|discriminate]. }
  destruct Q as (s1 & b1 & t1 & E1 & V1 & R1). rewrite E1. cbn [bind]. destruct (bad_parity_ok bo) as [p P]. rewrite P. cbn [bind].
  set (s2 := if p then sets ER B2 s1 else clrs ER B2 s1).
  assert (V2 : dv s t b s2 t1 b1) by (eapply dv_trans; [exact V1|]; unfold s2; destruct p; [apply (dv_sets _ _ _ 2); lia|apply (dv_clrs _ _ _ 2); lia]).
  clearbody s2. clear V1 E1 R1 P p. set (s3 := set_tr2 (c_svc s2) s2). set (s4 := if c_srvi s3 then set_svc false s3 else s3). set (s5 := if (on s4 IG B2 && c_tr1 s4) || (on s4 IG B0 && negb (c_srvi s4)) then set_svc true s4 else s4).
  assert (V5 : dv s2 t1 b1 s5 t1 b1) by (unfold s5, s4; apply dv_plain; auto using out_refl; ifs; reflexivity).
  assert (V25 := dv_trans _ _ _ _ _ _ _ _ _ V2 V5). clearbody s5. clear s3 s4 V2 V5 s2.
  destruct (dw_ok s5) as (x5 & E5 & W5); [rewrite (dv_regs _ _ _ _ _ _ V25) by discriminate; exact D|].
  assert (Q : exists s6 b6 t6, (if c_tr2 s5 then let* b := dw_out s5 in Ok (set_srvi true s5, Bus.set_srvi true t1, b) else Ok (s5, t1, b1)) = Ok (s6, t6, b6) /\ dv s t b s6 t6 b6).
  { destruct (c_tr2 s5); [|eexists _, _, _; split; [reflexivity|exact V25]]. rewrite E5. cbn [bind]. eexists _, _, _. split; [reflexivity|]. eapply dv_trans; [exact V25|]. apply dv_byte; try reflexivity; [|exact W5]. destruct t1; unfold out_lines; cbn; tauto. }
  destruct Q as (s6 & b6 & t6 & E6 & V6). rewrite E6. cbn [bind].
  assert (Q : exists s7 t7, (if (c_tr1 s6 && negb (on s6 IG B2)) || negb (c_srvi s6) || (on s6 IG B2 && srvo t6 && negb (c_tr2 s6)) then (set_srvi false s6, Bus.set_srvi false t6) else (s6, t6)) = (s7, t7) /\ dv s t b s7 t7 b6).
  { ifs; eexists _, _; (split; [reflexivity|]); [|exact V6]. eapply dv_trans; [exact V6|]. apply dv_plain; try reflexivity; auto; [destruct t6; unfold out_lines; cbn; tauto|discriminate]. }
  destruct Q as (s7 & t7 & E7 & V7). rewrite E7. clear E7 V6 E6 s6 t6.
  assert (V8 : dv s t b (set_tr1 false s7) t7 b6) by (eapply dv_trans; [exact V7|]; apply dv_plain; try reflexivity; auto using out_refl).
  set (s8 := set_tr1 false s7) in *. clearbody s8. clear V7 V25. destruct (dw_ok s8) as (x8 & E8 & W8); [rewrite (dv_regs _ _ _ _ _ _ V8) by discriminate; exact D|].
  destruct (on s8 IG B5).
  - rewrite E8. cbn [bind]. eexists _, _, _. split; [reflexivity|]. eapply dv_trans; [exact V8|]. eapply dv_trans; [|apply (dv_clrs _ _ _ 3); lia]. apply dv_byte; try reflexivity; [|exact W8]. destruct t7; unfold out_lines; cbn; tauto.
  - eexists _, _, _. split; [reflexivity|]. eapply dv_trans; [exact V8|]. apply dv_plain; try reflexivity; auto; [destruct t7; unfold out_lines; cbn; tauto|discriminate].
Qed.
(** A call while the channel is up. *)
Definition dev_up (s : ctx) (t : tags) (bo bi : Z) : res bus :=
    let s := set_tags t (set_bo (Z.land bo 255) s) in
    let s := if on s IG B3 then set_req true s else s in
    let* r := dev_adri s t bi in
    let '(s, t, bi) := r in
    let '(s, t) := if negb (on s IG B5) && c_stai s then (set_stai false s, Bus.set_stai false t) else (s, t) in
    let s := set_sel (selo t && c_addrd s) s in
    let* r := dev_adro s t bo bi in
    let '(s, t, bi) := r in
    let '(s, t) := dev_drop s t in
    let t := if c_opri s then Bus.set_opri true t else t in
    let '(s, t) := dev_req s t in
    let* r := dev_poll s t bi in
    let '(s, t, bi) := r in
    dev_data s t bo bi.
Lemma dev_is s t bo bi : dev s t bo bi = if negb (opro t) && negb (supo t) then
    Ok (set_wx 0 (set_addrd false (set_sel false s)), if c_sel s then Bus.set_opri false (Bus.set_adri false (Bus.set_srvi false (Bus.set_stai false t))) else t, bi)
  else dev_up s t bo bi.
Proof. reflexivity. Qed.
Lemma dw_dv s t b s' t' b' : dv s t b s' t' b' -> is_byte (c_r s DW) -> is_byte (c_r s' DW).
Proof. intros V D. rewrite (dv_regs _ _ _ _ _ _ V) by discriminate. exact D. Qed.
Lemma dev_up_ok s' t bo bi : is_byte (c_r s' DW) -> good (dev_up s' t bo bi) (set_tags t (set_bo (Z.land bo 255) s')) t bi.
Proof.
  intros D'. unfold dev_up, good. cbv zeta. set (s := set_tags t (set_bo (Z.land bo 255) s')). assert (D : is_byte (c_r s DW)) by exact D'. clearbody s. clear D' s'. rename s into s0. pose (s := s0). set (s1 := if on s0 IG B3 then set_req true s0 else s0).
  assert (V1 : dv s t bi s1 t bi) by (apply dv_plain; auto using out_refl; unfold s1, s; ifs; reflexivity). clearbody s1.
  destruct (good_adri s1 t bi (dw_dv _ _ _ _ _ _ V1 D)) as (s2 & t2 & b2 & E2 & W2). rewrite E2. cbn [bind]. pose proof (dv_trans _ _ _ _ _ _ _ _ _ V1 W2) as V2. clear V1 W2 E2 s1.
  assert (Q : exists s3 t3, (if negb (on s2 IG B5) && c_stai s2 then (set_stai false s2, Bus.set_stai false t2) else (s2, t2)) = (s3, t3) /\ dv s t bi s3 t3 b2).
  { ifs; eexists _, _; (split; [reflexivity|]); [|exact V2]. eapply dv_trans; [exact V2|]. apply dv_plain; try reflexivity; auto; [destruct t2; unfold out_lines; cbn; tauto|discriminate]. }
  destruct Q as (s3 & t3 & E3 & V3). rewrite E3. clear E3 V2 s2 t2.
  assert (V4 : dv s t bi (set_sel (selo t3 && c_addrd s3) s3) t3 b2) by (eapply dv_trans; [exact V3|]; apply dv_plain; auto using out_refl). set (s4 := set_sel (selo t3 && c_addrd s3) s3) in *. clearbody s4. clear V3 s3.
  destruct (good_adro s4 t3 bo b2) as (s5 & t5 & b5 & E5 & W5). rewrite E5. cbn [bind]. pose proof (dv_trans _ _ _ _ _ _ _ _ _ V4 W5) as V5. clear V4 W5 E5 s4 t3 b2.
  pose proof (dv_trans _ _ _ _ _ _ _ _ _ V5 (good_drop s5 t5 b5)) as V6. destruct (dev_drop s5 t5) as [s6 t6]. cbn [fst snd] in V6. clear V5 s5 t5.
  assert (V7 : dv s t bi s6 (if c_opri s6 then Bus.set_opri true t6 else t6) b5) by (eapply dv_trans; [exact V6|]; apply dv_plain; auto; destruct (c_opri s6); auto using out_refl; destruct t6; unfold out_lines; cbn; tauto).
  set (t7 := if c_opri s6 then Bus.set_opri true t6 else t6) in *. clearbody t7. clear V6 t6.
  pose proof (dv_trans _ _ _ _ _ _ _ _ _ V7 (good_req s6 t7 b5)) as V8. destruct (dev_req s6 t7) as [s8 t8]. cbn [fst snd] in V8. clear V7 s6 t7.
  destruct (good_poll s8 t8 b5 (dw_dv _ _ _ _ _ _ V8 D)) as (s9 & t9 & b9 & E9 & W9). rewrite E9. cbn [bind]. pose proof (dv_trans _ _ _ _ _ _ _ _ _ V8 W9) as V9. clear V8 W9 E9 s8 t8 b5.
  destruct (good_data s9 t9 bo b9 (dw_dv _ _ _ _ _ _ V9 D)) as (s10 & t10 & b10 & E10 & W10). exists s10, t10, b10. split; [exact E10|]. exact (dv_trans _ _ _ _ _ _ _ _ _ V9 W10).
Qed.

Lemma dev_ok s t bo bi : ctx_ok s -> exists s' t' bi', dev s t bo bi = Ok (s', t', bi') /\ ctx_ok s' /\
  (forall r, r <> ER -> r <> IG -> c_r s' r = c_r s r) /\ (forall k, 0 <= k < 8 -> k <> 1 -> bit_of (c_r s' IG) k = bit_of (c_r s IG) k) /\
  c_disk s' = c_disk s /\ c_cur s' = c_cur s /\ c_addr s' = c_addr s /\ (c_wx s' = if opro t || supo t then c_wx s else 0) /\
  out_lines t t' /\ (bi' = bi \/ bus_value s bi') /\ (raised t t' -> bus_value s bi').
Proof.
  intros OK. pose proof OK as (R & OA & OB & OL & OBO & OW & LEN & CU). rewrite dev_is. rewrite <- negb_orb. destruct (opro t || supo t); cbn [negb].
  - destruct (dev_up_ok s t bo bi (R DW)) as (s' & t' & b' & E & [[V1 V1'] V2 V3 V4 V5 V6 V7 V8 V9]). exists s', t', b'. split; [exact E|]. unfold inner in V1. cbn [c_a c_b c_alu c_carry c_nz c_index c_cur c_unit c_disk c_addr c_bo c_tags set_tags set_bo] in V1. injection V1 as I1 I2 I3 I4 I5 I6 I7 I8 I9 I10 I11 I12.
    cbn [c_wx set_tags set_bo] in V1'. split.
    + unfold ctx_ok, cur_ok. rewrite I1, I2, I3, I7, I9, I11, V1'. split; [exact (V4 R)|]. repeat (split; [assumption|]). split; [apply land_byte|]. split; [assumption|]. split; [assumption|exact CU].
    + split; [exact V2|]. split; [intros k K N; destruct (V3 k K) as [Q|[Q _]]; [exact Q|lia]|]. split; [exact I9|]. split; [exact I7|]. split; [exact I10|]. split; [exact V1'|]. split; [exact V5|]. split; [exact V6|].
      intros [[A B]|[[A B]|[A B]]]; [destruct (V7 A)|destruct (V8 A)|destruct (V9 A)]; congruence || assumption.
  - eexists _, _, _. split; [reflexivity|]. split; [unfold ctx_ok; repeat split; try apply R; try apply OA; try apply OB; try apply OL; try apply OBO; cbn; try lia; try exact LEN; exact CU|]. repeat (split; [reflexivity || (intros; reflexivity)|]).
    destruct (c_sel s); split; try (destruct t; unfold out_lines; cbn; tauto); (split; [left; reflexivity|]); intros [[A B]|[[A B]|[A B]]]; try (destruct t; cbn in *; discriminate); congruence.
Qed.

(** *** Histories *)
Lemma put_disk_ok i d s : ctx_ok s -> (i < 8)%nat -> ctx_ok (put_disk i d s).
Proof.
  intros (R & OA & OB & OL & OBO & OW & LEN & CU) I. unfold ctx_ok, put_disk. cbn [c_r c_a c_b c_alu c_bo c_wx c_disk set_disk]. repeat (split; [assumption|]). split; [rewrite len_set by lia; exact LEN|].
  unfold cur_ok in *. cbn [c_cur c_disk set_disk]. destruct (c_cur s) as [k|]; [|exact CU]. destruct CU as [x CU]. rewrite nth_set by lia. destruct (Nat.eqb k i); eauto.
Qed.
Lemma on_drive_ok i f s s' : ctx_ok s -> on_drive i f s = Ok s' -> ctx_ok s'.
Proof.
  intros OK H. unfold on_drive in H. destruct (nth_error (c_disk s) i) as [[d|]|] eqn:D; try (injection H as <-; exact OK). destruct (f d) as [d'| |]; try discriminate. injection H as <-. apply put_disk_ok; [exact OK|].
  pose proof (nth_lt _ _ _ D). destruct OK as (_ & _ & _ & _ & _ & _ & LEN & _). lia.
Qed.
Lemma event_ok ros s e s' : (forall w, good_mi (ros w)) -> ctx_ok s -> do_event ros s e = Ok s' -> ctx_ok s'.
Proof.
  intros G OK H. destruct e as [|t bo bi|i|i f fmt|i t]; cbn [do_event] in H.
  - destruct (step_split ros s s' G OK H) as (s1 & _ & _ & _ & _ & _ & _ & F). apply (mf_ok _ _ _ F).
  - destruct (dev_ok s t bo bi OK) as (x & t' & b' & E & K & _). rewrite E in H. cbn [bind fst] in H. injection H as <-. exact K.
  - exact (on_drive_ok _ _ _ _ OK H).
  - exact (on_drive_ok _ _ _ _ OK H).
  - destruct (nth_error (c_disk s) i) as [[d|]|] eqn:D; injection H as <-; try exact OK. apply put_disk_ok; [exact OK|]. pose proof (nth_lt _ _ _ D). destruct OK as (_ & _ & _ & _ & _ & _ & LEN & _). lia.
Qed.
Lemma events_ok ros l : forall s s', (forall w, good_mi (ros w)) -> ctx_ok s -> do_events ros s l = Ok s' -> ctx_ok s'.
Proof.
  induction l as [|e l IH]; intros s s' G OK H; cbn [do_events] in H; [injection H as <-; exact OK|]. destruct (do_event ros s e) as [s1| |] eqn:E; try discriminate. cbn [bind] in H. apply (IH s1 s' G); [exact (event_ok ros s e s1 G OK E)|exact H].
Qed.
Lemma new_ok addr : ctx_ok (new_ctrl addr).
Proof. unfold ctx_ok, new_ctrl, cur_ok. cbn. repeat split; try (intros; apply byte_c; reflexivity); unfold is_byte; lia. Qed.
