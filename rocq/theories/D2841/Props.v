(** C120-C129: the 2841 storage control. *)
From Verif Require Import D2841.Proofs8.
Open Scope Z_scope.

(** ** C120: every microinstruction computes the sum, difference or logical function of its operands, the carry and the zero
    indication. *)
Theorem C120_arithmetic :
  forall s m s', ctx_ok s -> good_mi m -> micro s m = Ok s' ->
  (exists o, (o, c_carry s') = compute (CC m) (CV m) (c_a s') (operand s m) (bit_of (c_r s ST) 3) /\ c_nz s' = negb (o =? 0) /\ c_alu s' = (if BP m =? 0 then o else c_a s')) /\
  (forall r, source (CA m) = Some r -> c_a s' = c_r s r) /\ (CA m = 15 -> c_a s' = c_bo s) /\ (CA m = 0 \/ 18 <= CA m <= 27 -> c_a s' = 0).
Proof. intros s m s' OK G H. destruct (micro_ok s m s' OK G H). auto. Qed.
Print Assumptions C120_arithmetic.
(** GL - BY with GL = 200, BY = 77 goes to BX: 123, with a carry. *)
Example C120_met : exists s s', ctx_ok s /\ good_mi (mkMi 1 1 0 0 0 8 3 1 1 0 0) /\ micro s (mkMi 1 1 0 0 0 8 3 1 1 0 0) = Ok s' /\ c_r s' BX = 123 /\ c_carry s' = true.
Proof.
  exists (setr BY 77 (setr GL 200 (new_ctrl 144))). eexists. split.
  - destruct (new_ok 144) as (R & X). split; [|exact X]. intros r. apply put_byte; [apply byte_c; reflexivity|]. intros x. apply put_byte; [apply byte_c; reflexivity|exact R].
  - split; [unfold good_mi, is_byte; cbn; lia|]. split; [reflexivity|]. split; vm_compute; reflexivity.
Qed.

(** ** C121: a microinstruction changes the register it names, the status bits it names and nothing else; in the tag registers it
    sets or resets the bits of the result.  The lines to the channel and the other latches stay. *)
Theorem C121_registers :
  forall s m s', ctx_ok s -> good_mi m -> micro s m = Ok s' ->
  (forall r, r <> ST -> target (CD m) <> Some r -> c_r s' r = c_r s r) /\
  (forall r, target (CD m) = Some r -> r <> FT -> r <> FC -> c_r s' r = c_alu s') /\
  (forall r k, target (CD m) = Some r -> r = FT \/ r = FC -> 0 <= k < 8 -> bit_of (c_r s' r) k = if bit_of (c_alu s') k then Z.testbit (CN m) 2 else bit_of (c_r s r) k) /\
  (forall k, 0 <= k < 8 -> bit_of (c_r s' ST) k =
     match cs_effect (CS m) (c_nz s') k with
     | Some b => b
     | None => if (k =? 3) && ((CC m =? 4) || (CC m =? 5) || (CC m =? 6)) then c_carry s' else bit_of (c_r s ST) k
     end) /\
  (c_addr s' = c_addr s /\ c_bo s' = c_bo s /\ c_tags s' = c_tags s /\ c_sel s' = c_sel s /\ c_req s' = c_req s /\ c_opri s' = c_opri s /\ c_addrd s' = c_addrd s /\ c_tr2 s' = c_tr2 s /\ c_stai s' = c_stai s) /\
  (c_tr1 s' = true -> c_tr1 s = true \/ CA m = 15 \/ (CA m = 12 /\ bit_of (c_r s IG) 2 = true)) /\ (c_tr1 s = true -> c_tr1 s' = true) /\
  c_srvi s' = (if CA m =? 13 then false else c_srvi s) /\ c_svc s' = c_svc s || ((CD m =? 15) && bit_of (c_alu s') 0 && negb (c_srvi s')) /\
  c_index s' = (if CS m =? 3 then false else c_index s).
Proof.
  intros s m s' OK G H. destruct (micro_ok s m s' OK G H) as [F1 F2 F3 F4 F5 F6 F7 F8 F9 F10 F11 F12 F13 F14 F15 F16 F17 F18].
  split; [exact F5|]. split; [exact F6|]. split; [intros r k T N K; exact (F7 r T N k K)|]. split; [exact F8|]. auto 10.
Qed.
Print Assumptions C121_registers.
Example C121_met : exists s', ctx_ok (new_ctrl 144) /\ good_mi (to_ig 128 4) /\ micro (new_ctrl 144) (to_ig 128 4) = Ok s' /\ c_r s' IG = 128 /\ c_svc s' = true.
Proof. eexists. split; [apply new_ok|]. split; [unfold good_mi, is_byte; cbn; lia|]. split; [reflexivity|]. split; reflexivity. Qed.

(** ** C122: the next address is the one the microinstruction names, with the two low bits from the named conditions; whatever
    happens, the address stays within the control store, registers are bytes, and only the operation of a drive can be
    undefined. *)
Theorem C122_next_address :
  forall s m s', ctx_ok s -> good_mi m -> micro s m = Ok s' ->
  c_wx s' = let p := 256 * (if CH m =? 8 then CK m mod 16 else c_wx s / 256) in
            if CL m =? 6 then p + c_a s' else p + CN m + 2 * num (high_condition s (selected s) (CH m)) + num (low_condition s (selected s) (CL m)).
Proof. intros s m s' OK G H. apply (mf_wx _ _ _ (micro_ok s m s' OK G H)). Qed.
Print Assumptions C122_next_address.
Theorem C122_executions :
  forall ros addr l s, (forall w, good_mi (ros w)) -> do_events ros (new_ctrl addr) l = Ok s ->
  0 <= c_wx s < 4096 /\ (forall r, is_byte (c_r s r)) /\ cur_ok s /\
  ((exists s', step ros s = Ok s') \/ drive_fails s) /\ (forall t bo bi, exists r, dev s t bo bi = Ok r).
Proof.
  intros ros addr l s G H. pose proof (events_ok ros l _ _ G (new_ok addr) H) as OK. pose proof OK as (R & OA & OB & OL & OBO & OW & LEN & CU). split; [exact OW|]. split; [exact R|]. split; [exact CU|]. split; [apply step_def; assumption|].
  intros t bo bi. destruct (dev_ok s t bo bi OK) as (s' & t' & b' & E & _). eauto.
Qed.
Print Assumptions C122_executions.
(** Eight steps of a control with a drive, without a pack, that reaches address 4 and stays there. *)
Example C122_met : (forall w, good_mi (ros1 128 w)) /\
  match do_events (ros1 128) (new_ctrl 144) (EAdd 2 T2311 :: repeat EStep 8) with Ok s => (c_wx s =? 4) && c_tr1 s | _ => false end = true.
Proof. split; [intros w; apply ros1_good; apply byte_c; reflexivity|]. vm_compute. reflexivity. Qed.

(** ** C123: in a step every drive moves on once: the one that is connected reads or writes a byte as the control register says,
    all others just turn; besides, the selected drive only may get tags.  The attention bits are those of the drives.  Writing the
    unit register selects the first drive whose bit is on. *)
Theorem C123_drives :
  forall ros s s', (forall w, good_mi (ros w)) -> ctx_ok s -> step ros s = Ok s' ->
  length (c_disk s') = length (c_disk s) /\
  (forall i d, nth_error (c_disk s) i = Some (Some d) -> exists d1 d' l,
     do_op d (drive_op s i) = Ok d1 /\ bit_of (c_r s' SC) (Z.of_nat i) = dasd_check_attn d1 /\
     nth_error (c_disk s') i = Some (Some d') /\ do_ops d1 l = Ok d' /\ Forall is_tag l /\ (c_cur s <> Some i -> l = [])) /\
  (forall i, nth_error (c_disk s) i = Some None -> nth_error (c_disk s') i = Some None /\ bit_of (c_r s' SC) (Z.of_nat i) = false).
Proof.
  intros ros s s' G OK H. destruct (step_split ros s s' G OK H) as (s1 & D & OK1 & W & C & F & M & MF). pose proof OK as (_ & _ & _ & _ & _ & _ & LEN & _).
  destruct (mf_moves _ _ _ MF) as (L & [ML MM] & M1 & M2). assert (SCE : c_r s' SC = c_r s1 SC).
  { apply (mf_other _ _ _ MF); [discriminate|]. unfold target. intros X. repeat match type of X with context [?x =? ?y] => destruct (Z.eqb_spec x y); [discriminate|] end. discriminate. }
  assert (LE : length (c_disk s1) = length (c_disk s)) by exact (rf_len _ _ _ F).
  assert (Z0 : forall i, bit_of 0 i = false) by (intros i; apply Z.bits_0).
  split; [congruence|]. split.
  - intros i d DI. assert (IN : In i (seq 0 8)) by (apply in_seq; pose proof (nth_lt _ _ _ DI); lia).
    destruct (rf_in _ _ _ F i d IN DI) as (d1 & D1 & O1 & A1). destruct (MM i _ D1) as (x & X & V). cbn in V. destruct V as (d' & -> & V). exists d1, d', (L i).
    split; [exact O1|]. split; [rewrite SCE, A1; change (c_r (setr SC 0 s) SC) with 0; rewrite Z0; reflexivity|]. split; [exact X|]. split; [exact V|]. split; [apply M2|]. intros N. apply M1. rewrite C. exact N.
  - intros i DI. assert (IN : In i (seq 0 8)) by (apply in_seq; pose proof (nth_lt _ _ _ DI); lia).
    destruct (rf_none _ _ _ F i IN DI) as (D1 & A1). destruct (MM i _ D1) as (x & X & V). cbn in V. subst x. split; [exact X|]. rewrite SCE, A1. change (c_r (setr SC 0 s) SC) with 0. apply Z0.
Qed.
Print Assumptions C123_drives.
(** The data register gets the byte read, with ST4 on to tell; the index latch is set only if ST1 asks for it. *)
Theorem C123_bytes :
  forall s s1, ctx_ok s -> drives s = Ok s1 ->
  (forall r, r <> DR -> r <> ST -> r <> SC -> c_r s1 r = c_r s r) /\ (forall k, 0 <= k < 8 -> k <> 4 -> bit_of (c_r s1 ST) k = bit_of (c_r s ST) k) /\
  (c_r s1 DR = c_r s DR \/ (bit_of (c_r s1 ST) 4 = true /\ exists i d x, nth_error (c_disk s) i = Some (Some d) /\ drive_op s i = ORead 0 0 0 /\ dasd_read_byte d 0 0 0 = Ok x /\ o_ret (snd x) <> 0 /\ c_r s1 DR = o_data (snd x) mod 256)) /\
  (c_index s1 = true -> c_index s = true \/ (bit_of (c_r s ST) 1 = true /\ exists i, connected s i = true)).
Proof.
  intros s s1 OK D. destruct (drives_ok s s1 OK D) as (F & _). destruct F as [F0 F1 F2 F3 F4 F5 F6 F7 F8 F9 F10 F11 F12].
  split; [intros r N1 N2 N3; rewrite F1 by assumption; apply setr_other; exact N3|]. split; [exact F2|]. split.
  - destruct F4 as [F4|(F4 & i & d & x & _ & X)]; [left; exact F4|right]. split; [exact F4|]. exists i, d, x. exact X.
  - intros Q. destruct (F6 Q) as [Q1|(Q1 & i & _ & Q2)]; [left; exact Q1|right]. split; [exact Q1|]. exists i. exact Q2.
Qed.
Print Assumptions C123_bytes.
Theorem C123_selection :
  forall s m s' i, ctx_ok s -> good_mi m -> micro s m = Ok s' -> CD m = 10 -> first_on (c_alu s') i ->
  c_cur s' = match nth_error (c_disk s) i with Some (Some _) => Some i | _ => None end.
Proof.
  intros s m s' i OK G H E F. pose proof (micro_ok s m s' OK G H) as MF. 
  assert (SE : exists s4, c_disk s4 = c_disk s /\ is_byte (c_alu s4) /\ c_cur s' = c_cur (select (setr UR (c_alu s4) s4)) /\ c_alu s' = c_alu s4).
  { unfold micro in H. pose proof OK as (_ & _ & _ & _ & _ & _ & _ & CU). rewrite (cur_selected s CU) in H. cbn [bind] in H. cbv zeta in H. unfold dest in H. rewrite E in H. cbn [Z.eqb Pos.eqb] in H. cbn [bind] in H.
    match type of H with context [select (setr UR (c_alu ?x) ?x)] => set (s4 := x) in H end. exists s4.
    assert (SD : forall x, c_disk (status (st_carry x m) m) = c_disk x /\ c_cur (status (st_carry x m) m) = c_cur x /\ c_alu (status (st_carry x m) m) = c_alu x) by (intros x; unfold status, st_carry; repeat match goal with |- context [if ?b then _ else _] => destruct b end; repeat split; reflexivity).
    assert (S4 : c_disk s4 = c_disk s).
    { unfold s4. cbn [c_disk set_alu set_carry set_nz]. destruct (CV m =? 0); cbn [c_disk set_b]; unfold abus; cbv zeta; repeat match goal with |- context [match ?b with _ => _ end] => destruct b end; reflexivity. }
    split; [exact S4|]. destruct (SD (select (setr UR (c_alu s4) s4))) as (_ & S2 & S3). apply (f_equal (fun x => match x with Ok y => y | _ => s end)) in H. cbv beta iota in H. clearbody s4. subst s'. change (c_cur (set_wx ?a ?b)) with (c_cur b). change (c_alu (set_wx ?a ?b)) with (c_alu b). rewrite S2, S3.
    assert (SA : c_alu (select (setr UR (c_alu s4) s4)) = c_alu s4) by (unfold select; destruct (first_unit 8 0 _); reflexivity). rewrite SA. split; [|split; reflexivity].
    pose proof (mf_ok _ _ _ MF) as (_ & _ & _ & AL & _). change (c_alu (set_wx ?a ?b)) with (c_alu b) in AL. rewrite S3, SA in AL. exact AL. }
  destruct SE as (s4 & D4 & B4 & C4 & A4). rewrite C4. rewrite (select_ok (setr UR (c_alu s4) s4)) with (i := i); [change (c_disk (setr UR (c_alu s4) s4)) with (c_disk s4); rewrite D4; reflexivity|rewrite setr_same; exact B4|]. rewrite setr_same, <- A4. exact F.
Qed.
Print Assumptions C123_selection.
(** Drive 2 of two is selected: UR = 0x20. *)
Example C123_met : exists s', ctx_ok two_drives /\ micro two_drives (mkMi 0 2 32 0 0 4 10 0 0 0 0) = Ok s' /\ first_on (c_alu s') 2 /\ c_cur s' = Some 2%nat.
Proof.
  eexists. split; [apply put_disk_ok; [apply put_disk_ok; [apply new_ok|lia]|lia]|]. split; [reflexivity|]. split; [|reflexivity]. split; [lia|]. split; [reflexivity|]. intros [|[|j]] J; [reflexivity|reflexivity|lia].
Qed.

(** ** C124: the connection to the channel is defined for any tags; whatever it puts on the bus has odd parity and is the write
    register or the busy status; tags that come with a byte are only raised together with one; it touches none of the lines of the
    channel but SELECT OUT, no drive, and no register but the error register and the latch that drops OPERATIONAL IN. *)
Theorem C124_bus :
  forall s t bo bi, ctx_ok s -> exists s' t' bi', dev s t bo bi = Ok (s', t', bi') /\ ctx_ok s' /\
  (forall r, r <> ER -> r <> IG -> c_r s' r = c_r s r) /\ (forall k, 0 <= k < 8 -> k <> 1 -> bit_of (c_r s' IG) k = bit_of (c_r s IG) k) /\
  c_disk s' = c_disk s /\ c_cur s' = c_cur s /\ c_addr s' = c_addr s /\ (c_wx s' = if opro t || supo t then c_wx s else 0) /\
  out_lines t t' /\ (bi' = bi \/ bus_value s bi') /\ (raised t t' -> bus_value s bi').
Proof. exact dev_ok. Qed.
Print Assumptions C124_bus.
(** A control that sends its address. *)
Example C124_met : ctx_ok sender /\ odd_bits 9 145 = true /\ adri (lines true false false true false false false) = false /\
  match dev sender (lines true false false true false false false) 0 0 with Ok (_, t', b) => adri t' && (b =? 145) | _ => false end = true.
Proof. split; [exact sender_ok|]. split; [reflexivity|]. split; [reflexivity|]. vm_compute. reflexivity. Qed.

(** ** C125: a control that has nothing to do and is not addressed leaves the lines and the bus to the others.
    In full: dev s t bo bi = Ok (s', t, bi).  It holds but for ADDRESS IN. *)
Theorem C125_others_partial :
  forall s t bo bi, c_r s IG = 0 -> c_addrd s = false -> c_req s = false -> c_opri s = false -> c_stai s = false ->
  adro t = false \/ Z.land bo 240 <> c_addr s -> opro t || supo t = true ->
  exists s', dev s t bo bi = Ok (s', Bus.set_adri false t, bi) /\ c_addrd s' = false /\ c_sel s' = false /\ c_req s' = false /\ c_opri s' = false /\ c_stai s' = false /\ c_srvi s' = c_srvi s /\ c_svc s' = c_svc s /\
  c_wx s' = c_wx s /\ forall r, r <> ER -> c_r s' r = c_r s r.
Proof. exact idle_dev. Qed.
Print Assumptions C125_others_partial.
Example C125_met : match dev (new_ctrl 144) (lines true true false true false false false) 256 0 with Ok (_, t', b) => selo t' && adro t' && (b =? 0) | _ => false end = true.
Proof. vm_compute. reflexivity. Qed.
(** The ADDRESS IN of another unit is taken away. *)
Theorem C125_others_refuted :
  forall s t bo bi, c_r s IG = 0 -> c_addrd s = false -> c_req s = false -> c_opri s = false -> c_stai s = false ->
  adro t = false \/ Z.land bo 240 <> c_addr s -> opro t || supo t = true -> adri t = true ->
  exists s' t', dev s t bo bi = Ok (s', t', bi) /\ adri t' = false.
Proof. intros s t bo bi H1 H2 H3 H4 H5 H6 H7 _. destruct (idle_dev s t bo bi H1 H2 H3 H4 H5 H6 H7) as (s' & E & _). exists s', (Bus.set_adri false t). split; [exact E|reflexivity]. Qed.
Print Assumptions C125_others_refuted.
Example C125_others_refuted_met : match dev (new_ctrl 144) (lines true false false true true true false) 256 0 with Ok (_, t', _) => opri t' && negb (adri t') | _ => false end = true.
Proof. vm_compute. reflexivity. Qed.

(** ** C126: a control answers to the sixteen addresses with its first digit: free, it takes SELECT OUT and notes that it is
    addressed; with status to present, it answers with busy.  In full it would answer for any address it can be given. *)
Theorem C126_addressed_partial :
  forall s t bo bi, c_r s IG = 0 -> c_addrd s = false -> c_req s = false -> c_opri s = false -> c_stai s = false -> c_svc s = false -> c_srvi s = false ->
  adro t = true -> Z.land bo 240 = c_addr s -> opro t || supo t = true ->
  exists s', dev s t bo bi = Ok (s', Bus.set_stai false (Bus.set_srvi false (Bus.set_adri false (Bus.set_selo false t))), bi) /\ c_addrd s' = true /\ c_bo s' = Z.land bo 255 /\ bit_of (c_r s' ER) 1 = true /\
  (bad_parity bo = Ok (bit_of (c_r s' ER) 2)) /\ c_wx s' = c_wx s /\ forall r, r <> ER -> c_r s' r = c_r s r.
Proof. exact addressed_dev. Qed.
Print Assumptions C126_addressed_partial.
Theorem C126_busy :
  forall s t bo bi, c_r s IG = 4 -> c_addrd s = false -> c_req s = false -> c_opri s = false ->
  adro t = true -> srvo t = false -> Z.land bo 240 = c_addr s -> opro t || supo t = true ->
  exists s', dev s t bo bi = Ok (s', Bus.set_selo false (Bus.set_stai true (Bus.set_adri false t)), Z.lor 256 (Z.lor SNS_SMS SNS_BSY)) /\ c_addrd s' = false /\ c_stai s' = true /\ c_wx s' = c_wx s /\ forall r, r <> ER -> c_r s' r = c_r s r.
Proof. exact busy_dev. Qed.
Print Assumptions C126_busy.
Example C126_met : Z.land 403 240 = c_addr (new_ctrl 144) /\
  is_ok (dev (new_ctrl 144) (lines true true false true false false false) 403 0) (fun s t b => c_addrd s && negb (selo t) && (b =? 0)) = true /\
  is_ok (dev (setr IG 4 (new_ctrl 144)) (lines true true false true false false false) 403 0) (fun s t b => stai t && (b =? 336)) = true.
Proof. split; [reflexivity|]. split; vm_compute; reflexivity. Qed.
(** A control that is given an address with a second digit other than 0 answers to none, not even to its own. *)
Theorem C126_digit_refuted :
  forall addr t bo bi, 0 <= addr < 256 -> Z.land addr 15 <> 0 -> opro t || supo t = true ->
  exists s', dev (new_ctrl addr) t bo bi = Ok (s', Bus.set_adri false t, bi) /\ c_addrd s' = false.
Proof.
  intros addr t bo bi A D UP. destruct (idle_dev (new_ctrl addr) t bo bi) as (s' & E & K & _); try reflexivity; [|exact UP|exists s'; auto]. right. cbn [c_addr new_ctrl]. apply digit.
  rewrite <- Z.land_assoc. exact D.
Qed.
Print Assumptions C126_digit_refuted.
Example C126_digit_refuted_met : 0 <= 145 < 256 /\ Z.land 145 15 <> 0 /\
  is_ok (dev (new_ctrl 145) (lines true true false true false false false) 145 0) (fun s t b => negb (c_addrd s) && selo t) = true.
Proof. split; [lia|]. split; [discriminate|]. vm_compute. reflexivity. Qed.

(** ** C127: when the channel drops OPERATIONAL OUT the control starts its microprogram anew, is not selected and not addressed.
    In full it would also take back all its lines. *)
Theorem C127_reset_partial :
  forall s t bo bi, opro t = false -> supo t = false -> exists s' t', dev s t bo bi = Ok (s', t', bi) /\
  c_wx s' = 0 /\ c_sel s' = false /\ c_addrd s' = false /\ c_disk s' = c_disk s /\ (c_sel s = true -> opri t' = false /\ adri t' = false /\ srvi t' = false /\ stai t' = false).
Proof.
  intros s t bo bi O S. rewrite dev_is, O, S. cbn [negb andb]. eexists _, _. split; [reflexivity|]. repeat (split; [reflexivity|]). intros ->. repeat split; reflexivity.
Qed.
Print Assumptions C127_reset_partial.
Example C127_met : is_ok (dev (set_sel true (new_ctrl 144)) (lines false false false false true false true) 0 0) (fun s t b => negb (opri t) && negb (srvi t)) = true.
Proof. vm_compute. reflexivity. Qed.
(** A control that has sent its address and has no SELECT OUT at that time keeps OPERATIONAL IN and ADDRESS IN up through the
    reset. *)
Theorem C127_reset_refuted :
  exists ros addr l s t bo bi s' t', (forall w, good_mi (ros w)) /\ do_events ros (new_ctrl addr) l = Ok s /\
  opro t = false /\ supo t = false /\ opri t = true /\ adri t = true /\ dev s t bo bi = Ok (s', t', bi) /\ opri t' = true /\ adri t' = true /\
  exists s2 t2 b2, dev s' (lines false false false true false false false) bo bi = Ok (s2, t2, b2) /\ opri t2 = true /\ adri t2 = true.
Proof.
  pose (l := [EBus (lines true true false true false false false) 400 0; EStep; EBus (lines false false false true false false false) 256 0]).
  pose (t := lines false false false false true true false). pose (u := lines false false false true false false false).
  assert (C : match do_events (ros1 1) (new_ctrl 144) l with
              | Ok s => match dev s t 256 256 with
                        | Ok (s', t', b) => (b =? 256) && opri t' && adri t' && is_ok (dev s' u 256 256) (fun _ t2 _ => opri t2 && adri t2)
                        | _ => false end
              | _ => false end = true) by (vm_compute; reflexivity).
  destruct (do_events (ros1 1) (new_ctrl 144) l) as [s| |] eqn:E; try discriminate C. destruct (dev s t 256 256) as [[[s' t'] b]| |] eqn:D; try discriminate C.
  rewrite !andb_true_iff in C. destruct C as (((C1 & C2) & C3) & C4). apply Z.eqb_eq in C1. subst b. unfold is_ok in C4. destruct (dev s' u 256 256) as [[[s2 t2] b2]| |] eqn:D2; try discriminate C4. rewrite andb_true_iff in C4. destruct C4 as [C4 C5].
  exists (ros1 1), 144, l, s, t, 256, 256, s', t'. split; [intros w; apply ros1_good; apply byte_c; reflexivity|]. split; [exact E|]. split; [reflexivity|]. split; [reflexivity|]. split; [reflexivity|]. split; [reflexivity|]. split; [exact D|]. split; [exact C2|]. split; [exact C3|]. exists s2, t2, b2. split; [exact D2|]. split; [exact C4|exact C5].
Qed.
Print Assumptions C127_reset_refuted.

(** ** C128: SERVICE IN rises only while SERVICE OUT is down.  It does not: in a write, when the byte has been taken from the bus,
    SERVICE IN falls, and two calls later it is up again though the channel has held SERVICE OUT all the time. *)
Theorem C128_service_refuted :
  exists ros addr l s t bo bi s' t' bi', (forall w, good_mi (ros w)) /\ do_events ros (new_ctrl addr) l = Ok s /\
  (exists l' u, l = l' ++ [EBus u 256 0] /\ srvo u = true /\ srvi u = false) /\ srvo t = true /\ srvi t = false /\
  dev s t bo bi = Ok (s', t', bi') /\ srvi t' = true.
Proof.
  pose (w := lines true false true true true false false).
  pose (l := [EBus (lines true true false true false false false) 400 0; EStep; EBus (lines true false false true true false false) 256 0; EBus (lines true false true true true false true) 256 0; EStep;
    EBus (lines true false true true true false true) 256 0; EBus w 256 0]).
  assert (C : match do_events (ros1 128) (new_ctrl 144) l with Ok s => is_ok (dev s w 256 0) (fun _ t' _ => srvi t') | _ => false end = true) by (vm_compute; reflexivity).
  destruct (do_events (ros1 128) (new_ctrl 144) l) as [s| |] eqn:E; try discriminate C. unfold is_ok in C. destruct (dev s w 256 0) as [[[s' t'] b]| |] eqn:D; try discriminate C.
  exists (ros1 128), 144, l, s, w, 256, 0, s', t', b.
  split; [intros x; apply ros1_good; apply byte_c; reflexivity|]. split; [exact E|]. split; [exists (firstn 6 l), w; repeat split; reflexivity|]. split; [reflexivity|]. split; [reflexivity|]. split; [exact D|exact C].
Qed.
Print Assumptions C128_service_refuted.

(** ** C129: a 2302 drive can be added to a control with a free place.  It never is, though there is memory for it, and a drive of
    another type is left in its place. *)
Theorem C129_drive_refuted :
  forall s addr, length (c_disk s) = 8%nat -> nth_error (c_disk s) (Z.to_nat (Z.land addr 7)) = Some None ->
  snd (create_2302 s addr) = false /\ exists d, nth_error (c_disk (fst (create_2302 s addr))) (Z.to_nat (Z.land addr 7)) = Some (Some d) /\ d_type d = T2303.
Proof.
  intros s addr L N. unfold create_2302. rewrite N. split; [reflexivity|]. exists (new_drive T2303). cbn [fst put_disk c_disk set_disk]. rewrite nth_set, Nat.eqb_refl; [split; reflexivity|].
  apply (nth_lt _ _ _ N).
Qed.
Print Assumptions C129_drive_refuted.
Example C129_met : nth_error (c_disk (new_ctrl 144)) (Z.to_nat (Z.land 147 7)) = Some None.
Proof. reflexivity. Qed.
