(** Writing a new record: proofs. *)
From Verif Require Export Dasd.Write.

Lemma puts_app l : forall b p m, puts b p (l ++ m) = puts (puts b p l) (p + length l) m.
Proof.
  induction l as [|x l IH]; intros b p m; cbn [app puts length]; [rewrite Nat.add_0_r; reflexivity|].
  rewrite IH. f_equal. lia.
Qed.
Lemma puts_puts b p l m : length l = length m -> (p + length l <= length b)%nat -> puts (puts b p m) p l = puts b p l.
Proof.
  intros L H. apply list_ext. intros i. rewrite (puts_nth l (puts b p m)) by (rewrite puts_length; lia). rewrite (puts_nth l b p), (puts_nth m b p) by lia.
  rewrite <- L. destruct (Nat.leb p i && Nat.ltb i (p + length l))%bool eqn:B; reflexivity.
Qed.

(** The part of a drive that matters here. *)
Record view := mkView { v_st : dpos; v_cnt : Z; v_tp : Z; v_rp : Z; v_cp : Z; v_kl : Z; v_dl : Z; v_buf : list Z }.
Definition looks (s : dasd) (v : view) : Prop :=
  d_state s = v_st v /\ d_count s = v_cnt v /\ d_tpos s = v_tp v /\ d_rpos s = v_rp v /\ d_cpos s = v_cp v
  /\ d_klen s = v_kl v /\ d_dlen s = v_dl v /\ d_cbuf s = v_buf v /\ d_step s = 0.
(** What stays when a record is written. *)
Definition rstay (s s' : dasd) : Prop :=
  d_file s' = d_file s /\ d_type s' = d_type s /\ d_head s' = d_head s /\ d_tstart s' = d_tstart s /\ d_tsize s' = d_tsize s
  /\ d_cyl s' = d_cyl s /\ d_ncyl s' = d_ncyl s /\ d_fpos s' = d_fpos s /\ d_dirty s' = d_dirty s /\ d_label s' = d_label s.
Lemma rstay_refl s : rstay s s. Proof. repeat split. Qed.
Lemma rstay_trans a b c : rstay a b -> rstay b c -> rstay a c.
Proof. unfold rstay. intuition congruence. Qed.

(** Room for the eight bytes of a count field. *)
Definition room (s : dasd) (p n : Z) : Prop :=
  0 <= p /\ p + n < d_tsize s /\ d_tsize s = ty_tsize (d_type s) /\ 0 <= d_tstart s /\ d_tstart s + d_tsize s <= blen s.

Lemma upd8 b p : upd (upd (upd (upd (upd (upd (upd (upd b p 255) (S p) 255) (S (S p)) 255) (S (S (S p))) 255) (S (S (S (S p)))) 255)
   (S (S (S (S (S p))))) 255) (S (S (S (S (S (S p)))))) 255) (S (S (S (S (S (S (S p))))))) 255 = puts b p (repeat 255 8).
Proof. reflexivity. Qed.

Lemma rec_ff_is s p : d_rpos s + d_tstart s = p -> 0 <= p -> p + 8 <= blen s -> rec_ff s = Ok (set_cbuf s (puts (d_cbuf s) (Z.to_nat p) (repeat 255 8))).
Proof.
  intros H1 H2 H3. unfold rec_ff, rec_put, putb, blen in *.
  destruct s as [fi cb la ty he st di dr at' fl ms fp ts nc cy tp rp cp cn dl tz rc sta dy kl a b sp]. dv. cbn in H1, H3. 
  repeat (rewrite ?upd_length; match goal with |- context [(0 <=? ?x) && (?x <? ?y)] => replace ((0 <=? x) && (x <? y)) with true by lia end; dv).
  subst p. rewrite !Z.add_0_r.
  replace (Z.to_nat (rp + ts + 1)) with (S (Z.to_nat (rp + ts))) by lia.
  replace (Z.to_nat (rp + ts + 2)) with (S (S (Z.to_nat (rp + ts)))) by lia.
  replace (Z.to_nat (rp + ts + 3)) with (S (S (S (Z.to_nat (rp + ts))))) by lia.
  replace (Z.to_nat (rp + ts + 4)) with (S (S (S (S (Z.to_nat (rp + ts)))))) by lia.
  replace (Z.to_nat (rp + ts + 5)) with (S (S (S (S (S (Z.to_nat (rp + ts))))))) by lia.
  replace (Z.to_nat (rp + ts + 6)) with (S (S (S (S (S (S (Z.to_nat (rp + ts)))))))) by lia.
  replace (Z.to_nat (rp + ts + 7)) with (S (S (S (S (S (S (S (Z.to_nat (rp + ts))))))))) by lia.
  rewrite upd8. reflexivity.
Qed.

Lemma rstay_cbuf s b : rstay s (set_cbuf s b). Proof. repeat split. Qed.

Ltac hcbn := repeat match goal with H : _ |- _ => progress cbn in H end.

(** The gap before a record: a byte of ones and the sync byte. *)
Lemma am_255 s p kl dl cp cnt : looks s (mkView PAm cnt p p cp kl dl (d_cbuf s)) -> room s p 8 -> 0 <= cp -> cp + 1 <= ty_bpt (d_type s) -> 0 <= cnt < 65535 ->
  exists s' b, write_calls 14 s 255 = Ok s' /\ rstay s s' /\ looks s' (mkView PAm (ty_g1 (d_type s) - 1) p p (cp + 1) kl dl b)
  /\ (b = d_cbuf s \/ b = puts (d_cbuf s) (Z.to_nat (p + d_tstart s)) (repeat 255 8)).
Proof.
  intros (S1 & S2 & S3 & S4 & S5 & S6 & S7 & S8 & T) (R1 & R2 & R3 & R4 & R5) H1 H2 H3. hcbn.
  rewrite write_slot by exact T. pose proof (ty_facts (d_type s)) as TF. unfold blen in *.
  destruct s as [fi cb la ty he st di dr at' fl ms fp ts nc cy tp rp cp' cn dl' tz rc sta dy kl' a b sp]. hcbn. subst sp sta cn tp rp cp' kl' dl'.
  unfold dasd_write_byte. dv. change (13 <? ty_rate ty) with false. cbn iota.
  replace (tz <=? p) with false by lia. dv. rewrite !(u16_small (cnt + 1)), !(u16_small (cp + 1)) by lia.
  unfold write_am. dv. change (255 =? 0) with false. change (0 =? 0) with true. change (255 =? 255) with true. change (255 =? 14) with false. dv. cbn [andb].
  destruct (ty_g1 ty - 1 + 10 <? u8 (a + 1)).
  - match goal with |- context [rec_ff ?q] => rewrite (rec_ff_is q (p + ts)) end; [|reflexivity|cbn; lia|unfold blen; cbn; lia]. dv.
    replace (ty_bpt ty + 1 <=? cp + 1) with false by lia. dv. do 2 eexists. split; [reflexivity|]. split; [repeat split|]. split; [repeat split|]. right. reflexivity.
  - dv. replace (ty_bpt ty + 1 <=? cp + 1) with false by lia. dv. do 2 eexists. split; [reflexivity|]. split; [repeat split|]. split; [repeat split|]. left. reflexivity.
Qed.

Lemma am_14 s p kl dl cp : looks s (mkView PAm (ty_g1 (d_type s) - 1) p p cp kl dl (d_cbuf s)) -> room s p 8 -> 0 <= cp -> cp + 1 <= ty_bpt (d_type s) ->
  exists s', write_calls 14 s 14 = Ok s' /\ rstay s s'
  /\ looks s' (mkView PCnt1 0 p p (cp + 1) kl dl (puts (d_cbuf s) (Z.to_nat (p + d_tstart s)) (repeat 255 8))).
Proof.
  intros (S1 & S2 & S3 & S4 & S5 & S6 & S7 & S8 & T) (R1 & R2 & R3 & R4 & R5) H1 H2. hcbn.
  rewrite write_slot by exact T. pose proof (ty_facts (d_type s)) as TF. unfold blen in *.
  destruct s as [fi cb la ty he st di dr at' fl ms fp ts nc cy tp rp cp' cn dl' tz rc sta dy kl' a b sp]. hcbn. subst sp sta cn tp rp cp' kl' dl'.
  unfold dasd_write_byte. dv. change (13 <? ty_rate ty) with false. cbn iota.
  replace (tz <=? p) with false by lia. dv. rewrite !(u16_small (ty_g1 ty - 1 + 1)), !(u16_small (cp + 1)) by lia.
  unfold write_am. dv. change (14 =? 0) with false. change (0 =? 0) with true. change (14 =? 255) with false. change (14 =? 14) with true. dv.
  replace (ty_g1 ty <=? ty_g1 ty - 1 + 1) with true by lia. cbn [andb]. unfold ck_init. dv.
  match goal with |- context [rec_ff ?q] => rewrite (rec_ff_is q (p + ts)) end; [|reflexivity|cbn; lia|unfold blen; cbn; lia]. dv.
  replace (ty_bpt ty + 1 <=? cp + 1) with false by lia. dv. eexists. split; [reflexivity|]. split; repeat split.
Qed.

(** The count field. *)
Lemma cnt1_flag s p kl dl cp f : looks s (mkView PCnt1 0 p p cp kl dl (d_cbuf s)) -> p < d_tsize s -> 0 <= cp -> cp + 1 <= ty_bpt (d_type s) ->
  exists s', write_calls 14 s f = Ok s' /\ rstay s s' /\ looks s' (mkView PCnt1 1 p p (cp + 1) f dl (d_cbuf s)).
Proof.
  intros (S1 & S2 & S3 & S4 & S5 & S6 & S7 & S8 & T) R1 H1 H2. hcbn.
  rewrite write_slot by exact T. pose proof (ty_facts (d_type s)) as TF. unfold blen in *.
  destruct s as [fi cb la ty he st di dr at' fl ms fp ts nc cy tp rp cp' cn dl' tz rc sta dy kl' a b sp]. hcbn. subst sp sta cn tp rp cp' kl' dl'.
  unfold dasd_write_byte. dv. change (13 <? ty_rate ty) with false. cbn iota.
  replace (tz <=? p) with false by lia. dv. change (u16 (0 + 1)) with 1. rewrite !(u16_small (cp + 1)) by lia.
  unfold write_cnt1. dv. change (0 =? 0) with true. dv.
  replace (ty_bpt ty + 1 <=? cp + 1) with false by lia. dv. eexists. split; [reflexivity|]. split; repeat split.
Qed.

Lemma cnt1_first s p rp kl dl cp c : looks s (mkView PCnt1 1 p rp cp kl dl (d_cbuf s)) -> room s p 8 -> 0 <= cp -> cp + 1 <= ty_bpt (d_type s) ->
  exists s', write_calls 14 s c = Ok s' /\ rstay s s'
  /\ looks s' (mkView PCnt1 2 (p + 1) rp (cp + 1) 0 dl (upd (d_cbuf s) (Z.to_nat (p + d_tstart s)) (Z.lor c (if bit kl 64 then 128 else 0)))).
Proof.
  intros (S1 & S2 & S3 & S4 & S5 & S6 & S7 & S8 & T) (R1 & R2 & R3 & R4 & R5) H1 H2. hcbn.
  rewrite write_slot by exact T. pose proof (ty_facts (d_type s)) as TF. unfold blen in *.
  destruct s as [fi cb la ty he st di dr at' fl ms fp ts nc cy tp rp' cp' cn dl' tz rc sta dy kl' a b sp]. hcbn. subst sp sta cn tp rp' cp' kl' dl'.
  unfold dasd_write_byte. dv. change (13 <? ty_rate ty) with false. cbn iota.
  replace (tz <=? p) with false by lia. dv. change (u16 (1 + 1)) with 2. rewrite !(u16_small (cp + 1)) by lia.
  unfold write_cnt1. dv. change (1 =? 0) with false. change (1 <=? 8) with true. change (1 =? 1) with true. dv. unfold putb. dv.
  replace ((0 <=? p + ts) && (p + ts <? Z.of_nat (length cb))) with true by lia. dv. unfold ck_xor. change (Z.odd (2 - 1)) with true. dv.
  replace (ty_bpt ty + 1 <=? cp + 1) with false by lia. dv. rewrite (u16_small (p + 1)) by lia. eexists. split; [reflexivity|]. split; repeat split.
Qed.

Lemma cnt1_byte s p rp dl cp c k : looks s (mkView PCnt1 k p rp cp 0 dl (d_cbuf s)) -> room s p 1 -> 2 <= k <= 8 -> 0 <= cp -> cp + 1 <= ty_bpt (d_type s) ->
  exists s', write_calls 14 s c = Ok s' /\ rstay s s'
  /\ looks s' (mkView PCnt1 (k + 1) (p + 1) rp (cp + 1) 0 dl (upd (d_cbuf s) (Z.to_nat (p + d_tstart s)) c)).
Proof.
  intros (S1 & S2 & S3 & S4 & S5 & S6 & S7 & S8 & T) (R1 & R2 & R3 & R4 & R5) H0 H1 H2. hcbn.
  rewrite write_slot by exact T. pose proof (ty_facts (d_type s)) as TF. unfold blen in *.
  destruct s as [fi cb la ty he st di dr at' fl ms fp ts nc cy tp rp' cp' cn dl' tz rc sta dy kl' a b sp]. hcbn. subst sp sta cn tp rp' cp' kl' dl'.
  unfold dasd_write_byte. dv. change (13 <? ty_rate ty) with false. cbn iota.
  replace (tz <=? p) with false by lia. dv. rewrite !(u16_small (k + 1)), !(u16_small (cp + 1)) by lia.
  unfold write_cnt1. dv. replace (k =? 0) with false by lia. replace (k <=? 8) with true by lia. replace (k =? 1) with false by lia. dv. unfold putb. dv.
  replace ((0 <=? p + ts) && (p + ts <? Z.of_nat (length cb))) with true by lia. dv. unfold ck_xor.
  destruct (Z.odd (k + 1 - 1)); dv;
    (replace (ty_bpt ty + 1 <=? cp + 1) with false by lia); dv; rewrite (u16_small (p + 1)) by lia; (eexists; split; [reflexivity|]; split; repeat split).
Qed.

Lemma cnt1_bytes l : forall s p rp dl cp k, looks s (mkView PCnt1 k p rp cp 0 dl (d_cbuf s)) -> room s p (Z.of_nat (length l)) ->
  2 <= k -> k + Z.of_nat (length l) <= 9 -> 0 <= cp -> cp + Z.of_nat (length l) <= ty_bpt (d_type s) ->
  exists s', write_slots s l = Ok s' /\ rstay s s'
  /\ looks s' (mkView PCnt1 (k + Z.of_nat (length l)) (p + Z.of_nat (length l)) rp (cp + Z.of_nat (length l)) 0 dl (puts (d_cbuf s) (Z.to_nat (p + d_tstart s)) l)).
Proof.
  induction l as [|x l IH]; intros s p rp dl cp k LK R K1 K2 H1 H2.
  - exists s. cbn [write_slots length Z.of_nat puts]. rewrite !Z.add_0_r. split; [reflexivity|]. split; [apply rstay_refl|exact LK].
  - cbn [length] in *. destruct R as (R1 & R2 & R3 & R4 & R5).
    destruct (cnt1_byte s p rp dl cp x k LK) as (s1 & E1 & ST1 & L1); try lia; [unfold room; lia|].
    pose proof ST1 as (_ & Q2 & _ & Q3 & Q4 & _). pose proof L1 as (_ & _ & _ & _ & _ & _ & _ & B1 & _). cbn [v_buf] in B1.
    destruct (IH s1 (p + 1) rp dl (cp + 1) (k + 1)) as (s2 & E2 & ST2 & L2); try lia.
    { rewrite B1. exact L1. }
    { unfold room, blen in *. rewrite Q2, Q3, Q4, B1, upd_length. lia. }
    { rewrite Q2. lia. }
    exists s2. cbn [write_slots]. rewrite E1. cbn [bind]. split; [exact E2|]. split; [exact (rstay_trans _ _ _ ST1 ST2)|].
    rewrite B1, Q3 in L2. cbn [puts]. replace (Z.to_nat (p + 1 + d_tstart s)) with (S (Z.to_nat (p + d_tstart s))) in L2 by lia.
    replace (k + Z.of_nat (S (length l))) with (k + 1 + Z.of_nat (length l)) by lia.
    replace (p + Z.of_nat (S (length l))) with (p + 1 + Z.of_nat (length l)) by lia.
    replace (cp + Z.of_nat (S (length l))) with (cp + 1 + Z.of_nat (length l)) by lia. exact L2.
Qed.

(** The first check byte: the lengths are taken from what was written. *)
Lemma cnt1_check s p rp dl cp x k5 k6 k7 : looks s (mkView PCnt1 9 p rp cp 0 dl (d_cbuf s)) -> p < d_tsize s -> 0 <= cp -> cp + 1 <= ty_bpt (d_type s) ->
  getb s (rp + d_tstart s + 5) = Ok k5 -> getb s (rp + d_tstart s + 6) = Ok k6 -> getb s (rp + d_tstart s + 7) = Ok k7 ->
  exists s', write_calls 14 s x = Ok s' /\ rstay s s'
  /\ looks s' (mkView (if k5 =? 0 then PGap3 else PGap2) 65535 p rp (cp + 1) k5 (k6 * 256 + k7) (d_cbuf s)).
Proof.
  intros (S1 & S2 & S3 & S4 & S5 & S6 & S7 & S8 & T) R1 H1 H2 G5 G6 G7. hcbn.
  rewrite write_slot by exact T. pose proof (ty_facts (d_type s)) as TF. unfold getb in *.
  destruct s as [fi cb la ty he st di dr at' fl ms fp ts nc cy tp rp' cp' cn dl' tz rc sta dy kl' a b sp]. hcbn. subst sp sta cn tp rp' cp' kl' dl'.
  unfold dasd_write_byte. dv. change (13 <? ty_rate ty) with false. cbn iota.
  replace (tz <=? p) with false by lia. dv. change (u16 (9 + 1)) with 10. rewrite !(u16_small (cp + 1)) by lia.
  unfold write_cnt1. dv. change (9 =? 0) with false. change (9 <=? 8) with false. change ((9 =? 9) || (9 =? 10)) with true. dv.
  unfold load_lens, rec_at, getb. dv. rewrite G5. dv. rewrite G6. dv. rewrite G7. dv. unfold after_count, ck_init. dv.
  replace (ty_bpt ty + 1 <=? cp + 1) with false by lia. dv. eexists. split; [reflexivity|]. split; repeat split.
Qed.

(** The second check byte is taken as the first byte of the gap. *)
Lemma gap3_check s p rp kl dl cp y : looks s (mkView PGap3 65535 p rp cp kl dl (d_cbuf s)) -> p < d_tsize s -> 0 <= cp -> cp + 1 <= ty_bpt (d_type s) ->
  y <> 255 -> y <> sync_byte (d_type s) ->
  exists s', write_calls 14 s y = Ok s' /\ rstay s s' /\ looks s' (mkView PGap3 0 p rp (cp + 1) kl dl (d_cbuf s)).
Proof.
  intros (S1 & S2 & S3 & S4 & S5 & S6 & S7 & S8 & T) R1 H1 H2 Y1 Y2. hcbn.
  rewrite write_slot by exact T. pose proof (ty_facts (d_type s)) as TF. unfold getb in *.
  destruct s as [fi cb la ty he st di dr at' fl ms fp ts nc cy tp rp' cp' cn dl' tz rc sta dy kl' a b sp]. hcbn. subst sp sta cn tp rp' cp' kl' dl'.
  unfold dasd_write_byte. dv. change (13 <? ty_rate ty) with false. cbn iota.
  replace (tz <=? p) with false by lia. dv. change (u16 (65535 + 1)) with 0. rewrite !(u16_small (cp + 1)) by lia.
  unfold write_gap3. dv. replace (y =? 255) with false by lia. dv.
  assert (G : ty_g2 ty <=? 0 = false) by lia.
  assert (SY : (y =? (if is14 ty then 9 else 14)) = false) by (destruct ty; unfold sync_byte in Y2; cbn; lia).
  destruct (y =? 204); dv; rewrite G; dv; rewrite SY; dv; (replace (ty_bpt ty + 1 <=? cp + 1) with false by lia); dv;
    (eexists; split; [reflexivity|]; split; repeat split).
Qed.

Lemma getb_puts s b l i v q : d_cbuf s = puts b q l -> (q + length l <= length b)%nat -> nth_error l i = Some v -> getb s (Z.of_nat (q + i)) = Ok v.
Proof.
  intros E L N. unfold getb, tab. replace (Z.of_nat (q + i) <? 0) with false by lia. rewrite Nat2Z.id, E, puts_nth by exact L.
  assert (I : (i < length l)%nat) by (apply nth_error_Some; congruence).
  replace (Nat.leb q (q + i) && Nat.ltb (q + i) (q + length l))%bool with true by (symmetry; apply andb_true_iff; rewrite Nat.leb_le, Nat.ltb_lt; lia).
  replace (q + i - q)%nat with i by lia. rewrite N. reflexivity.
Qed.

Lemma c0_back r n : byte (k_c0 r) -> Z.lor (k_c0 r mod 128) (if bit (flag_of n r) 64 then 128 else 0) = k_c0 r.
Proof.
  unfold byte, flag_of, bit. intros H.
  pose proof (sweep 256 (fun c => (Z.lor (c mod 128) (if negb (Z.land ((if 128 <=? c then 64 else 0) + 128) 64 =? 0) then 128 else 0) =? c)
     && (Z.lor (c mod 128) (if negb (Z.land ((if 128 <=? c then 64 else 0) + 0) 64 =? 0) then 128 else 0) =? c)) ltac:(vm_compute; reflexivity) _ H) as S.
  cbn beta in S. apply andb_true_iff in S. destruct (Z.odd n); lia.
Qed.

Lemma write_record s p m r x y n u v kl dl cp cnt : ckd_ok r -> k_key r = [] ->
  looks s (mkView PAm cnt p p cp kl dl (d_cbuf s)) -> 0 <= cnt < 65535 -> 5 <= p <= cp ->
  cp + 16 + Z.of_nat n + Z.of_nat (length (k_data r)) <= ty_bpt (d_type s) -> Z.of_nat n + 1 < ty_g2 (d_type s) ->
  d_tsize s = ty_tsize (d_type s) -> 0 <= d_tstart s -> d_tstart s + d_tsize s <= blen s ->
  y <> 255 -> y <> sync_byte (d_type s) ->
  exists s', write_slots s (sent (d_type s) m r x y n u v) = Ok s' /\ rstay s s' /\ d_state s' = PAm /\ d_count s' = 0 /\ d_step s' = 0
  /\ d_tpos s' = p + Z.of_nat (length (ckd_bytes r)) /\ d_rpos s' = p + Z.of_nat (length (ckd_bytes r))
  /\ d_cbuf s' = puts (d_cbuf s) (Z.to_nat (p + d_tstart s)) (ckd_bytes r).
Proof.
  intros (K1 & K2 & K3 & K4 & K5 & K6 & K7 & K8 & K9 & K10) NK LK CN P0 RM NG TZ T0 T1 Y1 Y2.
  pose proof (ty_facts (d_type s)) as TF. set (q := Z.to_nat (p + d_tstart s)).
  assert (RO : forall s', rstay s s' -> length (d_cbuf s') = length (d_cbuf s) -> room s' p 8).
  { intros s' (_ & A1 & _ & A2 & A3 & _) L. unfold room, blen in *. rewrite A1, A2, A3, L. lia. }
  destruct (am_255 s p kl dl cp cnt LK) as (s1 & b1 & E1 & ST1 & L1 & B1); try lia; [apply RO; [apply rstay_refl|reflexivity]|].
  assert (LB1 : length b1 = length (d_cbuf s)) by (destruct B1 as [->| ->]; [reflexivity|apply puts_length]).
  pose proof L1 as (_ & _ & _ & _ & _ & _ & _ & C1 & _). cbn [v_buf] in C1.
  pose proof ST1 as (_ & Q1 & _ & Q1' & Q1'' & _).
  destruct (am_14 s1 p kl dl (cp + 1)) as (s2 & E2 & ST2 & L2); try lia; [rewrite Q1, C1; exact L1|apply RO; [exact ST1|congruence]|rewrite Q1; lia|].
  pose proof (rstay_trans _ _ _ ST1 ST2) as ST12. pose proof ST12 as (_ & Q2 & _ & Q2' & Q2'' & _).
  pose proof L2 as (_ & _ & _ & _ & _ & _ & _ & C2 & _). cbn [v_buf] in C2.
  assert (LB2 : length (d_cbuf s2) = length (d_cbuf s)) by (rewrite C2, puts_length, C1; exact LB1).
  destruct (cnt1_flag s2 p kl dl (cp + 1 + 1) (flag_of m r)) as (s3 & E3 & ST3 & L3); [rewrite C2; exact L2|rewrite Q2''; lia|lia|rewrite Q2; lia|].
  pose proof (rstay_trans _ _ _ ST12 ST3) as ST13. pose proof ST13 as (_ & Q3 & _ & Q3' & Q3'' & _).
  pose proof L3 as (_ & _ & _ & _ & _ & _ & _ & C3 & _). cbn [v_buf] in C3.
  destruct (cnt1_first s3 p p (flag_of m r) dl (cp + 1 + 1 + 1) (k_c0 r mod 128)) as (s4 & E4 & ST4 & L4);
    [rewrite C3; exact L3|apply RO; [exact ST13|congruence]|lia|rewrite Q3; lia|].
  rewrite (c0_back r m K1) in L4.
  pose proof (rstay_trans _ _ _ ST13 ST4) as ST14. pose proof ST14 as (_ & Q4 & _ & Q4' & Q4'' & _).
  pose proof L4 as (_ & _ & _ & _ & _ & _ & _ & C4 & _). cbn [v_buf] in C4.
  assert (LB4 : length (d_cbuf s4) = length (d_cbuf s)) by (rewrite C4, upd_length; congruence).
  destruct (cnt1_bytes (tl (count_of r)) s4 (p + 1) p dl (cp + 1 + 1 + 1 + 1) 2) as (s5 & E5 & ST5 & L5);
    [rewrite C4; exact L4|unfold room, blen in *; rewrite Q4, Q4', Q4'', LB4; cbn [count_of tl length]; lia|lia|cbn [count_of tl length]; lia|lia|
     rewrite Q4; cbn [count_of tl length]; lia|].
  change (Z.of_nat (length (tl (count_of r)))) with 7 in L5. change (2 + 7) with 9 in L5.
  pose proof (rstay_trans _ _ _ ST14 ST5) as ST15. pose proof ST15 as (_ & Q5 & _ & Q5' & Q5'' & _).
  pose proof L5 as (_ & _ & _ & _ & _ & _ & _ & C5 & _). cbn [v_buf] in C5.
  assert (C5' : d_cbuf s5 = puts (d_cbuf s) q (count_of r)).
  { rewrite C5, Q4', C4, Q3', C3, C2, C1, Q1'. fold q. replace (Z.to_nat (p + 1 + d_tstart s)) with (S q) by (unfold q; lia).
    change (puts (puts b1 q (repeat 255 8)) q (count_of r) = puts (d_cbuf s) q (count_of r)).
    assert (LQ : (q + 8 <= length (d_cbuf s))%nat) by (unfold q, blen in *; lia).
    destruct B1 as [->| ->]; rewrite !puts_puts; rewrite ?puts_length; try reflexivity; try (cbn [count_of length]; lia). }
  assert (GB : forall i v0, nth_error (count_of r) i = Some v0 -> getb s5 (p + d_tstart s5 + Z.of_nat i) = Ok v0).
  { intros i v0 N. rewrite Q5'. replace (p + d_tstart s + Z.of_nat i) with (Z.of_nat (q + i)) by (unfold q; lia).
    apply (getb_puts s5 _ _ i v0 q C5'); [cbn [count_of length]; unfold q, blen in *; lia|exact N]. }
  destruct (cnt1_check s5 (p + 1 + 7) p dl (cp + 1 + 1 + 1 + 1 + 7) x 0 (Z.of_nat (length (k_data r)) / 256) (Z.of_nat (length (k_data r)) mod 256))
    as (s6 & E6 & ST6 & L6); [rewrite C5; exact L5|rewrite Q5''; lia|lia|rewrite Q5; lia| | | |].
  { apply (GB 5%nat). cbn [count_of nth_error]. rewrite NK. reflexivity. }
  { apply (GB 6%nat). reflexivity. }
  { apply (GB 7%nat). reflexivity. }
  change (0 =? 0) with true in L6. cbn iota in L6.
  assert (DL : Z.of_nat (length (k_data r)) / 256 * 256 + Z.of_nat (length (k_data r)) mod 256 = Z.of_nat (length (k_data r))).
  { pose proof (Z.div_mod (Z.of_nat (length (k_data r))) 256). lia. }
  rewrite DL in L6.
  pose proof (rstay_trans _ _ _ ST15 ST6) as ST16. pose proof ST16 as (_ & Q6 & _ & Q6' & Q6'' & _).
  pose proof L6 as (_ & _ & _ & _ & _ & _ & _ & C6 & _). cbn [v_buf] in C6.
  destruct (gap3_check s6 (p + 1 + 7) p 0 (Z.of_nat (length (k_data r))) (cp + 1 + 1 + 1 + 1 + 7 + 1) y) as (s7 & E7 & ST7 & L7);
    [rewrite C6; exact L6|rewrite Q6''; lia|lia|rewrite Q6; lia|exact Y1|rewrite Q6; exact Y2|].
  pose proof (rstay_trans _ _ _ ST16 ST7) as ST17. pose proof ST17 as (_ & Q7 & _ & Q7' & Q7'' & _).
  destruct L7 as (M1 & M2 & M3 & M4 & M5 & M6 & M7 & C7 & M8). cbn [v_st v_cnt v_tp v_rp v_cp v_kl v_dl v_buf] in M1, M2, M3, M4, M5, M6, M7, C7.
  destruct (write_update s7 n (k_data r) u v) as (s8 & E8 & W8 & F8 & T8 & N8 & P8 & _ & R8 & B8); unfold blen; rewrite ?Q7, ?Q7', ?Q7'', ?M3, ?M5, ?M7; try assumption; try lia.
  { rewrite C7, C6, C5', puts_length. exact T1. }
  exists s8. unfold sent. cbn [write_slots]. rewrite E1. cbn [bind]. rewrite E2. cbn [bind]. rewrite E3. cbn [bind]. rewrite E4. cbn [bind].
  rewrite slots_wapp, E5. cbn [bind app write_slots]. rewrite E6. cbn [bind]. rewrite E7. cbn [bind]. rewrite <- Q7. 
  split; [exact E8|].
  assert (LR : Z.of_nat (length (ckd_bytes r)) = 8 + Z.of_nat (length (k_data r))) by (unfold ckd_bytes; rewrite !app_length, NK; cbn [count_of length]; lia).
  split.
  { eapply rstay_trans; [exact ST17|]. unfold wstay in W8. unfold rstay. tauto. }
  split; [exact F8|]. split; [exact N8|]. split; [exact T8|]. split; [rewrite P8, M3, M7; lia|]. split; [rewrite R8, M3, M7; lia|].
  rewrite B8, C7, C6, C5', M3, Q7'. unfold ckd_bytes. rewrite NK. cbn [app]. rewrite puts_app. cbn [count_of length]. f_equal. unfold q. lia.
Qed.
