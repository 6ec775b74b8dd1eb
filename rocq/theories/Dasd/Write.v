(** Writing a field in place: proofs. *)
From Verif Require Export Dasd.Run.

(** A byte takes fourteen calls. *)
Lemma write_wait n : forall s d, d_step s + Z.of_nat n <= 13 ->
  forall m, write_calls (n + m) s d = write_calls m (set_step s (d_step s + Z.of_nat n)) d.
Proof.
  induction n as [|n IH]; intros s d H m.
  - cbn [Nat.add]. f_equal. rewrite Z.add_0_r. destruct s; reflexivity.
  - cbn [Nat.add write_calls]. rewrite write_unfold. replace (d_step s <? 13) with true by lia. cbn [bind fst].
    rewrite IH by (cbn [d_step set_step]; lia). cbn [d_step set_step].
    replace (d_step s + 1 + Z.of_nat n) with (d_step s + Z.of_nat (S n)) by lia. reflexivity.
Qed.

Lemma write_slot s d : d_step s = 0 -> write_calls 14 s d = (let* a := dasd_write_byte (set_step s 13) d 0 0 in Ok (fst a)).
Proof.
  intros H. change 14%nat with (13 + 1)%nat. rewrite write_wait by lia. rewrite H. reflexivity.
Qed.

(** The two kinds of fields. *)
Definition wfield (s : dasd) (len : Z) (next : dpos) : Prop :=
  (d_state s = PKey /\ len = d_klen s /\ next = PGap3) \/ (d_state s = PData /\ len = d_dlen s /\ next = PAm).

(** What stays while a field is written. *)
Definition wstay (s s' : dasd) : Prop :=
  d_file s' = d_file s /\ d_type s' = d_type s /\ d_head s' = d_head s /\ d_tstart s' = d_tstart s /\ d_tsize s' = d_tsize s
  /\ d_cyl s' = d_cyl s /\ d_ncyl s' = d_ncyl s /\ d_fpos s' = d_fpos s /\ d_dirty s' = d_dirty s /\ d_klen s' = d_klen s /\ d_dlen s' = d_dlen s
  /\ d_label s' = d_label s /\ d_ams s' = d_ams s.
Lemma wstay_refl s : wstay s s. Proof. repeat split. Qed.
Lemma wstay_trans a b c : wstay a b -> wstay b c -> wstay a c.
Proof. unfold wstay. intuition congruence. Qed.

Lemma write_one s len next d : wfield s len next -> d_step s = 0 -> 0 <= d_count s < len -> len < 65536 ->
  0 <= d_tpos s -> d_tpos s + 1 < d_tsize s -> d_tpos s < 65535 -> 0 <= d_cpos s -> d_cpos s + 1 <= ty_bpt (d_type s) ->
  0 <= d_tstart s -> d_tpos s + d_tstart s < blen s ->
  exists s', write_calls 14 s d = Ok s' /\ wstay s s' /\ d_state s' = d_state s /\ d_step s' = 0
  /\ d_count s' = d_count s + 1 /\ d_tpos s' = d_tpos s + 1 /\ d_cpos s' = d_cpos s + 1 /\ d_rpos s' = d_rpos s
  /\ d_cbuf s' = upd (d_cbuf s) (Z.to_nat (d_tpos s + d_tstart s)) d.
Proof.
  intros F T C L H1 H2 H3 H4 H5 H6 H7. rewrite write_slot by exact T. pose proof (ty_facts (d_type s)) as TF.
  unfold wfield, blen in *.
  destruct s as [fi cb la ty he st di dr at' fl ms fp ts nc cy tp rp cp cn dl tz rc sta dy kl a b sp]. cbn in *. subst sp.
  unfold dasd_write_byte. dv. change (13 <? ty_rate ty) with false. cbn iota.
  replace (tz <=? tp) with false by lia. dv.
  rewrite !(u16_small (cn + 1)), !(u16_small (cp + 1)) by lia.
  destruct F as [(-> & -> & ->)|(-> & -> & ->)]; unfold write_field, putb; dv.
  - replace (cn + 1 <=? kl) with true by lia. replace ((0 <=? tp + ts) && (tp + ts <? Z.of_nat (length cb))) with true by lia. dv.
    unfold ck_xor. destruct (Z.odd (cn + 1)); dv; replace (ty_bpt ty + 1 <=? cp + 1) with false by lia; dv; eexists;
      (split; [reflexivity|]); rewrite ?(u16_small (tp + 1)) by lia; repeat split.
  - replace (cn + 1 <=? dl) with true by lia. replace ((0 <=? tp + ts) && (tp + ts <? Z.of_nat (length cb))) with true by lia. dv.
    unfold ck_xor. destruct (Z.odd (cn + 1)); dv; replace (ty_bpt ty + 1 <=? cp + 1) with false by lia; dv; eexists;
      (split; [reflexivity|]); rewrite ?(u16_small (tp + 1)) by lia; repeat split.
Qed.

(** The two check bytes. *)
Lemma write_ck1 s len next d : wfield s len next -> d_step s = 0 -> d_count s = len -> 0 <= len < 60000 ->
  d_tpos s < d_tsize s -> 0 <= d_cpos s -> d_cpos s + 1 <= ty_bpt (d_type s) ->
  exists s', write_calls 14 s d = Ok s' /\ wstay s s' /\ d_state s' = d_state s /\ d_step s' = 0
  /\ d_count s' = len + 1 /\ d_tpos s' = d_tpos s /\ d_cpos s' = d_cpos s + 1 /\ d_rpos s' = d_rpos s /\ d_cbuf s' = d_cbuf s.
Proof.
  intros F T C L H2 H4 H5. rewrite write_slot by exact T. pose proof (ty_facts (d_type s)) as TF.
  unfold wfield, blen in *.
  destruct s as [fi cb la ty he st di dr at' fl ms fp ts nc cy tp rp cp cn dl tz rc sta dy kl a b sp]. cbn in *. subst sp.
  unfold dasd_write_byte. dv. change (13 <? ty_rate ty) with false. cbn iota.
  replace (tz <=? tp) with false by lia. dv.
  rewrite !(u16_small (cn + 1)), !(u16_small (cp + 1)) by lia.
  destruct F as [(-> & -> & ->)|(-> & -> & ->)]; unfold write_field; dv; subst cn.
  - replace (kl + 1 <=? kl) with false by lia. replace (kl + 1 =? kl + 2) with false by lia. dv.
    replace (ty_bpt ty + 1 <=? cp + 1) with false by lia; dv; eexists; (split; [reflexivity|]); repeat split.
  - replace (dl + 1 <=? dl) with false by lia. replace (dl + 1 =? dl + 2) with false by lia. dv.
    replace (ty_bpt ty + 1 <=? cp + 1) with false by lia; dv; eexists; (split; [reflexivity|]); repeat split.
Qed.
Lemma write_ck2 s len next d : wfield s len next -> d_step s = 0 -> d_count s = len + 1 -> 0 <= len < 60000 ->
  d_tpos s < d_tsize s -> 0 <= d_cpos s -> d_cpos s + 1 <= ty_bpt (d_type s) ->
  exists s', write_calls 14 s d = Ok s' /\ wstay s s' /\ d_state s' = next /\ d_step s' = 0
  /\ d_count s' = 0 /\ d_tpos s' = d_tpos s /\ d_cpos s' = d_cpos s + 1
  /\ d_rpos s' = match next with PAm => d_tpos s | _ => d_rpos s end /\ d_cbuf s' = d_cbuf s.
Proof.
  intros F T C L H2 H4 H5. rewrite write_slot by exact T. pose proof (ty_facts (d_type s)) as TF.
  unfold wfield, blen in *.
  destruct s as [fi cb la ty he st di dr at' fl ms fp ts nc cy tp rp cp cn dl tz rc sta dy kl a b sp]. cbn in *. subst sp.
  unfold dasd_write_byte. dv. change (13 <? ty_rate ty) with false. cbn iota.
  replace (tz <=? tp) with false by lia. dv.
  rewrite !(u16_small (cn + 1)), !(u16_small (cp + 1)) by lia.
  destruct F as [(-> & -> & ->)|(-> & -> & ->)]; unfold write_field; dv; subst cn.
  - replace (kl + 1 + 1 <=? kl) with false by lia. replace (kl + 1 + 1 =? kl + 2) with true by lia. dv.
    replace (ty_bpt ty + 1 <=? cp + 1) with false by lia; dv; eexists; (split; [reflexivity|]); repeat split.
  - replace (dl + 1 + 1 <=? dl) with false by lia. replace (dl + 1 + 1 =? dl + 2) with true by lia. dv.
    replace (ty_bpt ty + 1 <=? cp + 1) with false by lia; dv; eexists; (split; [reflexivity|]); repeat split.
Qed.

(** The bytes from place [p] on. *)
Fixpoint puts (b : list Z) (p : nat) (l : list Z) : list Z :=
  match l with [] => b | x :: l => puts (upd b p x) (S p) l end.
Lemma puts_length l : forall b p, length (puts b p l) = length b.
Proof. induction l as [|x l IH]; intros b p; cbn [puts]; [reflexivity|]. rewrite IH. apply upd_length. Qed.
Lemma puts_nth l : forall b p i, (p + length l <= length b)%nat ->
  nth_error (puts b p l) i = if (Nat.leb p i && Nat.ltb i (p + length l))%bool then nth_error l (i - p) else nth_error b i.
Proof.
  induction l as [|x l IH]; intros b p i H; cbn [puts length] in *.
  - replace (Nat.leb p i && Nat.ltb i (p + 0))%bool with false; [reflexivity|].
    symmetry. apply andb_false_iff. rewrite Nat.leb_gt, Nat.ltb_ge. lia.
  - rewrite IH by (rewrite upd_length; lia).
    destruct (Nat.eq_dec i p) as [->|N].
    + replace (Nat.leb (S p) p) with false by (symmetry; apply Nat.leb_gt; lia). cbn [andb].
      replace (Nat.leb p p) with true by (symmetry; apply Nat.leb_le; lia).
      replace (Nat.ltb p (p + S (length l))) with true by (symmetry; apply Nat.ltb_lt; lia). cbn [andb].
      rewrite Nat.sub_diag. cbn [nth_error]. apply upd_same. lia.
    + rewrite upd_other by auto.
      destruct (le_lt_dec p i) as [G|G].
      * replace (Nat.leb (S p) i) with true by (symmetry; apply Nat.leb_le; lia).
        replace (Nat.leb p i) with true by (symmetry; apply Nat.leb_le; lia). cbn [andb].
        replace (p + S (length l))%nat with (S p + length l)%nat by lia.
        destruct (Nat.ltb i (S p + length l)); [|reflexivity]. replace (i - p)%nat with (S (i - S p)) by lia. reflexivity.
      * replace (Nat.leb (S p) i) with false by (symmetry; apply Nat.leb_gt; lia).
        replace (Nat.leb p i) with false by (symmetry; apply Nat.leb_gt; lia). reflexivity.
Qed.

Lemma slots_wapp l : forall s m, write_slots s (l ++ m) = (let* s := write_slots s l in write_slots s m).
Proof.
  induction l as [|x l IH]; intros s m; cbn [app write_slots bind]; [destruct (write_slots s m); reflexivity|].
  destruct (write_calls 14 s x) as [s1| |]; cbn [bind]; auto.
Qed.

Lemma write_data l : forall s len next, wfield s len next -> d_step s = 0 -> 0 <= d_count s -> d_count s + Z.of_nat (length l) <= len -> len < 60000 ->
  0 <= d_tpos s -> d_tpos s + Z.of_nat (length l) < d_tsize s -> d_tsize s < 65536 -> 0 <= d_cpos s -> d_cpos s + Z.of_nat (length l) <= ty_bpt (d_type s) ->
  0 <= d_tstart s -> d_tstart s + d_tsize s <= blen s ->
  exists s', write_slots s l = Ok s' /\ wstay s s' /\ d_state s' = d_state s /\ d_step s' = 0
  /\ d_count s' = d_count s + Z.of_nat (length l) /\ d_tpos s' = d_tpos s + Z.of_nat (length l) /\ d_cpos s' = d_cpos s + Z.of_nat (length l) /\ d_rpos s' = d_rpos s
  /\ d_cbuf s' = puts (d_cbuf s) (Z.to_nat (d_tpos s + d_tstart s)) l.
Proof.
  induction l as [|x l IH]; intros s len next F T C L LL H1 H2 H3 H4 H5 H6 H7; cbn [length] in *.
  - exists s. cbn [write_slots puts Z.of_nat]. rewrite !Z.add_0_r. repeat split. exact T.
  - destruct (write_one s len next x F T) as (s1 & E1 & W1 & ST1 & T1 & C1 & P1 & Q1 & R1 & B1); try lia.
    assert (F1 : wfield s1 len next).
    { unfold wfield in *. destruct W1 as (_ & _ & _ & _ & _ & _ & _ & _ & _ & K1 & D1 & _). rewrite ST1, K1, D1. exact F. }
    pose proof W1 as (_ & WT & _ & WS & WZ & _).
    destruct (IH s1 len next F1 T1) as (s2 & E2 & W2 & ST2 & T2 & C2 & P2 & Q2 & R2 & B2); unfold blen; rewrite ?B1, ?upd_length, ?WT, ?WS, ?WZ; try lia.
    { unfold blen in H7. lia. }
    exists s2. cbn [write_slots]. rewrite E1. cbn [bind]. split; [exact E2|]. split; [exact (wstay_trans _ _ _ W1 W2)|].
    repeat split; try congruence; try lia.
    rewrite B2, B1, P1, WS. cbn [puts]. f_equal. lia.
Qed.

Lemma write_whole s len next l x y : wfield s len next -> d_step s = 0 -> d_count s = 0 -> Z.of_nat (length l) = len -> 
  0 <= d_tpos s -> d_tpos s <= d_cpos s -> d_cpos s + len + 2 <= ty_bpt (d_type s) ->
  d_tsize s = ty_tsize (d_type s) -> 0 <= d_tstart s -> d_tstart s + d_tsize s <= blen s ->
  exists s', write_slots s (l ++ [x; y]) = Ok s' /\ wstay s s' /\ d_state s' = next /\ d_step s' = 0
  /\ d_count s' = 0 /\ d_tpos s' = d_tpos s + len /\ d_cpos s' = d_cpos s + len + 2
  /\ d_rpos s' = match next with PAm => d_tpos s + len | _ => d_rpos s end
  /\ d_cbuf s' = puts (d_cbuf s) (Z.to_nat (d_tpos s + d_tstart s)) l.
Proof.
  intros F T C L H1 H2 H3 H4 H5 H6. pose proof (ty_facts (d_type s)) as TF.
  destruct (write_data l s len next F T) as (s1 & E1 & W1 & ST1 & T1 & C1 & P1 & Q1 & R1 & B1); try lia.
  assert (FF : forall s1, wstay s s1 -> d_state s1 = d_state s -> wfield s1 len next).
  { intros q W Q. unfold wfield in *. destruct W as (_ & _ & _ & _ & _ & _ & _ & _ & _ & K1 & D1 & _). rewrite Q, K1, D1. exact F. }
  pose proof W1 as (_ & WT & _ & WS & WZ & _).
  destruct (write_ck1 s1 len next x (FF s1 W1 ST1) T1) as (s2 & E2 & W2 & ST2 & T2 & C2 & P2 & Q2 & R2 & B2); rewrite ?WT, ?WZ; try lia.
  pose proof (wstay_trans _ _ _ W1 W2) as W12. pose proof W12 as (_ & WT2 & _ & WS2 & WZ2 & _).
  destruct (write_ck2 s2 len next y (FF s2 W12 ltac:(congruence)) T2) as (s3 & E3 & W3 & ST3 & T3 & C3 & P3 & Q3 & R3 & B3); rewrite ?WT2, ?WZ2; try lia.
  exists s3. rewrite slots_wapp, E1. cbn [bind write_slots]. rewrite E2. cbn [bind]. rewrite E3. cbn [bind].
  split; [reflexivity|]. split; [exact (wstay_trans _ _ _ W12 W3)|]. split; [exact ST3|]. split; [exact T3|]. split; [exact C3|].
  split; [lia|]. split; [lia|]. split; [|congruence].
  rewrite R3, R2, R1, P2, P1, L. reflexivity.
Qed.

(** A piece of the buffer, rewritten. *)
Lemma puts_at b p pre mid post l : at_pos b p (pre ++ mid ++ post) -> length l = length mid ->
  at_pos (puts b (Z.to_nat p + length pre) l) p (pre ++ l ++ post).
Proof.
  intros [H E] L. split; [exact H|].
  assert (LB : (Z.to_nat p + length (pre ++ mid ++ post) <= length b)%nat \/ (pre ++ mid ++ post = [])).
  { destruct (pre ++ mid ++ post) eqn:Q; [right; reflexivity|left]. rewrite <- Q in *. 
    assert (X : length (firstn (length (pre ++ mid ++ post)) (skipn (Z.to_nat p) b)) = length (pre ++ mid ++ post)) by (rewrite E; reflexivity).
    rewrite firstn_length, skipn_length in X. rewrite Q in *. cbn [length] in *. lia. }
  destruct LB as [LB|Q].
  - apply list_ext. intros i. rewrite !app_length in *.
    destruct (le_lt_dec (length pre + (length l + length post)) i) as [G|G].
    { transitivity (@None Z); [|symmetry]; apply nth_error_None; rewrite ?firstn_length, ?app_length; lia. }
    rewrite nth_firstn, nth_skipn, puts_nth by lia.
    assert (N : nth_error (pre ++ mid ++ post) i = nth_error b (Z.to_nat p + i)).
    { rewrite <- E at 1. rewrite nth_firstn, nth_skipn by lia. reflexivity. }
    destruct (le_lt_dec (length pre) i) as [G1|G1].
    + replace (Nat.leb (Z.to_nat p + length pre) (Z.to_nat p + i)) with true by (symmetry; apply Nat.leb_le; lia).
      rewrite (nth_error_app2 pre) by exact G1. rewrite (nth_error_app2 pre) in N by exact G1.
      destruct (le_lt_dec (length pre + length l) i) as [G2|G2].
      * replace (Nat.ltb (Z.to_nat p + i) (Z.to_nat p + length pre + length l)) with false by (symmetry; apply Nat.ltb_ge; lia). cbn [andb].
        rewrite <- N. rewrite !nth_error_app2 by lia. f_equal. lia.
      * replace (Nat.ltb (Z.to_nat p + i) (Z.to_nat p + length pre + length l)) with true by (symmetry; apply Nat.ltb_lt; lia). cbn [andb].
        rewrite nth_error_app1 by lia. f_equal. lia.
    + replace (Nat.leb (Z.to_nat p + length pre) (Z.to_nat p + i)) with false by (symmetry; apply Nat.leb_gt; lia). cbn [andb].
      rewrite <- N. rewrite !nth_error_app1 by lia. reflexivity.
  - destruct pre; [|discriminate]. destruct mid; [|discriminate]. destruct l; [|discriminate]. cbn in *. rewrite Q. reflexivity.
Qed.

Lemma at_pos_cells s l : 0 <= d_tstart s -> at_pos (d_cbuf s) (d_tstart s) l -> cells s 0 l.
Proof.
  intros T [H E] i v N. unfold Read.cell, getb, tab. replace (0 + Z.of_nat i + d_tstart s <? 0) with false by lia.
  replace (Z.to_nat (0 + Z.of_nat i + d_tstart s)) with (Z.to_nat (d_tstart s) + i)%nat by lia.
  rewrite <- E in N. assert (L : (i < length l)%nat).
  { assert (X : nth_error (firstn (length l) (skipn (Z.to_nat (d_tstart s)) (d_cbuf s))) i <> None) by congruence.
    apply nth_error_Some in X. rewrite firstn_length in X. lia. }
  rewrite nth_firstn, nth_skipn in N by exact L. rewrite N. reflexivity.
Qed.

(** The gap before the data. *)
Lemma gap3_zero s : d_state s = PGap3 -> d_step s = 0 -> 0 <= d_count s -> d_count s + 1 < ty_g2 (d_type s) ->
  d_tpos s < d_tsize s -> 0 <= d_cpos s -> d_cpos s + 1 <= ty_bpt (d_type s) ->
  exists s', write_calls 14 s 0 = Ok s' /\ wstay s s' /\ d_state s' = PGap3 /\ d_step s' = 0
  /\ d_count s' = d_count s + 1 /\ d_tpos s' = d_tpos s /\ d_cpos s' = d_cpos s + 1 /\ d_rpos s' = d_rpos s /\ d_cbuf s' = d_cbuf s.
Proof.
  intros F T C L H2 H4 H5. rewrite write_slot by exact T. pose proof (ty_facts (d_type s)) as TF.
  destruct s as [fi cb la ty he st di dr at' fl ms fp ts nc cy tp rp cp cn dl tz rc sta dy kl a b sp]. cbn in *. subst sp sta.
  unfold dasd_write_byte. dv. change (13 <? ty_rate ty) with false. cbn iota.
  replace (tz <=? tp) with false by lia. dv.
  rewrite !(u16_small (cn + 1)), !(u16_small (cp + 1)) by lia.
  unfold write_gap3; dv. change (0 =? 204) with false. change (0 =? 255) with false. dv. replace (ty_g2 ty <=? cn + 1) with false by lia. dv.
  replace (0 =? (if is14 ty then 9 else 14)) with false by (destruct ty; reflexivity). dv.
  replace (ty_bpt ty + 1 <=? cp + 1) with false by lia; dv; eexists; (split; [reflexivity|]); repeat split.
Qed.
Lemma gap3_sync s : d_state s = PGap3 -> d_step s = 0 -> 0 <= d_count s -> d_count s + 1 < ty_g2 (d_type s) ->
  d_tpos s < d_tsize s -> 0 <= d_cpos s -> d_cpos s + 1 <= ty_bpt (d_type s) ->
  exists s', write_calls 14 s (sync_byte (d_type s)) = Ok s' /\ wstay s s' /\ d_state s' = PData /\ d_step s' = 0
  /\ d_count s' = 0 /\ d_tpos s' = d_tpos s /\ d_cpos s' = d_cpos s + 1 /\ d_rpos s' = d_rpos s /\ d_cbuf s' = d_cbuf s.
Proof.
  intros F T C L H2 H4 H5. rewrite write_slot by exact T. pose proof (ty_facts (d_type s)) as TF.
  destruct s as [fi cb la ty he st di dr at' fl ms fp ts nc cy tp rp cp cn dl tz rc sta dy kl a b sp]. cbn in *. subst sp sta.
  unfold dasd_write_byte. dv. change (13 <? ty_rate ty) with false. cbn iota.
  replace (tz <=? tp) with false by lia. dv.
  rewrite !(u16_small (cn + 1)), !(u16_small (cp + 1)) by lia.
  unfold write_gap3; dv. replace (sync_byte ty =? 204) with false by (destruct ty; reflexivity).
  replace (sync_byte ty =? 255) with false by (destruct ty; reflexivity). dv. replace (ty_g2 ty <=? cn + 1) with false by lia. dv.
  replace (sync_byte ty =? (if is14 ty then 9 else 14)) with true by (destruct ty; reflexivity). unfold sync_to, ck_init. dv.
  replace (ty_bpt ty + 1 <=? cp + 1) with false by lia; dv; eexists; (split; [reflexivity|]); repeat split.
Qed.
Lemma gap3_zeros n : forall s, d_state s = PGap3 -> d_step s = 0 -> 0 <= d_count s -> d_count s + Z.of_nat n < ty_g2 (d_type s) ->
  d_tpos s < d_tsize s -> 0 <= d_cpos s -> d_cpos s + Z.of_nat n <= ty_bpt (d_type s) ->
  exists s', write_slots s (repeat 0 n) = Ok s' /\ wstay s s' /\ d_state s' = PGap3 /\ d_step s' = 0
  /\ d_count s' = d_count s + Z.of_nat n /\ d_tpos s' = d_tpos s /\ d_cpos s' = d_cpos s + Z.of_nat n /\ d_rpos s' = d_rpos s /\ d_cbuf s' = d_cbuf s.
Proof.
  induction n as [|n IH]; intros s F T C L H2 H4 H5.
  - exists s. cbn [repeat write_slots Z.of_nat]. rewrite !Z.add_0_r. repeat split; assumption.
  - destruct (gap3_zero s F T C ltac:(lia) H2 H4 ltac:(lia)) as (s1 & E1 & W1 & F1 & T1 & C1 & P1 & Q1 & R1 & B1).
    pose proof W1 as (_ & WT & _ & WS & WZ & _).
    destruct (IH s1 F1 T1) as (s2 & E2 & W2 & F2 & T2 & C2 & P2 & Q2 & R2 & B2); rewrite ?WT, ?WZ; try lia.
    exists s2. cbn [repeat write_slots]. rewrite E1. cbn [bind]. split; [exact E2|]. split; [exact (wstay_trans _ _ _ W1 W2)|].
    repeat split; try congruence; lia.
Qed.

(** Gap, sync byte, data and check bytes. *)
Lemma write_update s n l x y : d_state s = PGap3 -> d_step s = 0 -> d_count s = 0 -> Z.of_nat (length l) = d_dlen s ->
  Z.of_nat n + 1 < ty_g2 (d_type s) ->
  0 <= d_tpos s -> d_tpos s <= d_cpos s -> d_cpos s + Z.of_nat n + 1 + d_dlen s + 2 <= ty_bpt (d_type s) ->
  d_tsize s = ty_tsize (d_type s) -> 0 <= d_tstart s -> d_tstart s + d_tsize s <= blen s ->
  exists s', write_slots s (repeat 0 n ++ sync_byte (d_type s) :: l ++ [x; y]) = Ok s' /\ wstay s s' /\ d_state s' = PAm /\ d_step s' = 0
  /\ d_count s' = 0 /\ d_tpos s' = d_tpos s + d_dlen s /\ d_cpos s' = d_cpos s + Z.of_nat n + 1 + d_dlen s + 2
  /\ d_rpos s' = d_tpos s + d_dlen s
  /\ d_cbuf s' = puts (d_cbuf s) (Z.to_nat (d_tpos s + d_tstart s)) l.
Proof.
  intros F T C L N H1 H2 H3 H4 H5 H6. pose proof (ty_facts (d_type s)) as TF.
  destruct (gap3_zeros n s F T) as (s1 & E1 & W1 & F1 & T1 & C1 & P1 & Q1 & R1 & B1); try lia.
  pose proof W1 as (_ & WT & _ & WS & WZ & _).
  destruct (gap3_sync s1 F1 T1) as (s2 & E2 & W2 & F2 & T2 & C2 & P2 & Q2 & R2 & B2); rewrite ?WT, ?WZ; try lia.
  rewrite WT in E2.
  pose proof (wstay_trans _ _ _ W1 W2) as W12. pose proof W12 as (_ & WT2 & _ & WS2 & WZ2 & _ & _ & _ & _ & _ & WD2 & _).
  destruct (write_whole s2 (d_dlen s) PAm l x y) as (s3 & E3 & W3 & F3 & T3 & C3 & P3 & Q3 & R3 & B3); unfold blen; rewrite ?WT2, ?WZ2, ?WS2, ?B2, ?B1; try lia; try assumption.
  { right. split; [exact F2|]. split; [congruence|reflexivity]. }
  exists s3. rewrite slots_wapp, E1. cbn [bind write_slots]. rewrite E2. cbn [bind]. split; [exact E3|].
  split; [exact (wstay_trans _ _ _ W12 W3)|]. split; [exact F3|]. split; [exact T3|]. split; [exact C3|]. split; [lia|]. split; [lia|].
  split; [lia|]. rewrite B3, B2, B1, WS2, P2, P1. reflexivity.
Qed.

(** ... replaces the data of one record of a track and nothing else. *)
Lemma track_split ha before r after d : length d = length (k_data r) ->
  let pre := ha ++ concat (map ckd_bytes before) ++ count_of r ++ k_key r in
  let post := concat (map ckd_bytes after) ++ [255; 255; 255; 255] in
  track_bytes ha (before ++ r :: after) = pre ++ k_data r ++ post /\
  track_bytes ha (before ++ with_data r d :: after) = pre ++ d ++ post.
Proof.
  intros L pre post. unfold track_bytes, pre, post. rewrite !map_app, !concat_app. cbn [map concat].
  change (ckd_bytes (with_data r d)) with (count_of (with_data r d) ++ k_key r ++ d). change (ckd_bytes r) with (count_of r ++ k_key r ++ k_data r).
  assert (C : count_of (with_data r d) = count_of r) by (unfold count_of; cbn [with_data k_c0 k_c1 k_h0 k_h1 k_r k_key k_data]; rewrite L; reflexivity).
  rewrite C, <- !app_assoc. split; reflexivity.
Qed.
