(** Bytes, frames and records of the SIMH and E11 formats. *)
From Verif Require Import Base.Bits Tape.Model Tape.Spec Tape.Window.

(** *** Numbers *)
Lemma lor_shift a b n : 0 <= n -> 0 <= a < 2 ^ n -> Z.lor a (Z.shiftl b n) = a + b * 2 ^ n.
Proof.
  intros Hn Ha. rewrite <- (Z.shiftl_mul_pow2 b n) by lia.
  assert (E : Z.land a (Z.shiftl b n) = 0).
  { apply Z.bits_inj'; intros i Hi; rewrite Z.land_spec, Z.bits_0, Z.shiftl_spec by lia.
    destruct (Z.ltb_spec i n);
    [rewrite (Z.testbit_neg_r b (i - n)) by lia; apply andb_false_r
    |rewrite <- (Z.mod_small a (2 ^ n)) by lia; rewrite Z.mod_pow2_bits_high by lia; reflexivity]. }
  rewrite Z.add_nocarry_lxor by exact E. rewrite Z.lxor_lor by exact E. reflexivity.
Qed.

Lemma word_of_le32 n : 0 <= n < 4294967296 -> word_of (le32 n) = n.
Proof.
  intros H. unfold word_of, le32.
  pose proof (Z.mod_pos_bound n 256 ltac:(lia)) as B0.
  pose proof (Z.mod_pos_bound (n / 256) 256 ltac:(lia)) as B1.
  pose proof (Z.mod_pos_bound (n / 65536) 256 ltac:(lia)) as B2.
  pose proof (Z.mod_pos_bound (n / 16777216) 256 ltac:(lia)) as B3.
  change 65536 with (256 * 256) in *. change 16777216 with (256 * 256 * 256) in *. rewrite <- !Z.div_div in * by lia.
  rewrite (lor_shift _ _ 8) by (change (2 ^ 8) with 256; lia). change (2 ^ 8) with 256.
  rewrite (lor_shift _ _ 16) by (change (2 ^ 16) with 65536; lia). change (2 ^ 16) with 65536.
  rewrite (lor_shift _ _ 24) by (change (2 ^ 24) with 16777216; lia). change (2 ^ 24) with 16777216.
  set (a := n / 256) in *. set (b := a / 256) in *. set (c := b / 256) in *.
  pose proof (Z.div_mod n 256 ltac:(lia)) as D0. pose proof (Z.div_mod a 256 ltac:(lia)) as D1.
  pose proof (Z.div_mod b 256 ltac:(lia)) as D2. fold a in D0. fold b in D1. fold c in D2.
  clearbody c; clearbody b; clearbody a. assert (c mod 256 = c) by (apply Z.mod_small; lia). lia.
Qed.
Lemma bytes_of_le32 n : 0 <= n < 4294967296 -> bytes_of n = le32 n.
Proof.
  intros H. unfold bytes_of, le32.
  change 255 with (Z.ones 8). rewrite !Z.land_ones by lia. rewrite !Z.shiftr_div_pow2 by lia. reflexivity.
Qed.
Lemma le32_length n : length (le32 n) = 4%nat. Proof. reflexivity. Qed.

(** *** A drive with the tape at byte [k] *)
Definition on (t : tape) (c : list Z) (k : nat) : Prop :=
  t_att t = true /\ win_ok (t_win t) /\ can_flush (t_win t) /\ bytes_on t = c /\ at_byte t = k.

Lemma slice_cons (c : list Z) k b : nth_error c k = Some b -> skipn k c = b :: skipn (S k) c.
Proof.
  revert c; induction k as [|k IH]; intros [|x c] H; cbn in H; try discriminate; [injection H as ->; reflexivity|].
  cbn [skipn]. rewrite (IH c H). destruct c; reflexivity.
Qed.
Lemma slice_snoc (c : list Z) k n b : nth_error c (k + n) = Some b ->
  firstn (S n) (skipn k c) = firstn n (skipn k c) ++ [b].
Proof.
  intros H. rewrite <- nth_skipn in H. revert H. generalize (skipn k c) as l.
  induction n as [|n IH]; intros [|x l] H; cbn in H; try discriminate; [injection H as ->; reflexivity|].
  cbn [firstn app]. f_equal. apply IH. exact H.
Qed.

Lemma read_byte_on t c k d : on t c k -> (k < length c)%nat ->
  exists w' b, nth_error c k = Some b /\ tape_read_byte t d = Ok (set_win t w', SOk, b) /\ on (set_win t w') c (S k) /\
    w_ro w' = w_ro (t_win t).
Proof.
  intros [A [H [C [E K]]]] L. destruct (read_byte_ok t d A H C) as [w' [O' [C' [R' [E' [D' X]]]]]].
  rewrite E, K in X. destruct (nth_error c k) as [b|] eqn:N; [|apply nth_error_None in N; lia].
  destruct X as [X1 X2]. exists w', b. split; [reflexivity|]. split; [exact X1|]. split; [|exact R'].
  split; [exact A|]. split; [exact O'|]. split; [exact C'|]. split; [rewrite <- E; exact E'|]. exact X2.
Qed.
Lemma read_byte_end t c d : on t c (length c) ->
  exists w', tape_read_byte t d = Ok (set_eot (set_win t w') true, SEot, d) /\ on (set_eot (set_win t w') true) c (length c) /\
    w_ro w' = w_ro (t_win t).
Proof.
  intros [A [H [C [E K]]]]. destruct (read_byte_ok t d A H C) as [w' [O' [C' [R' [E' [D' X]]]]]].
  rewrite E, K in X. destruct (nth_error c (length c)) as [b|] eqn:N.
  { assert (length c < length c)%nat by (apply nth_error_Some; congruence). lia. }
  destruct X as [X1 X2]. exists w'. split; [exact X1|]. split; [|exact R'].
  split; [exact A|]. split; [exact O'|]. split; [exact C'|]. split; [rewrite <- E; exact E'|]. exact X2.
Qed.
Lemma set_eot_id t : t_eot t = false -> set_eot t false = t.
Proof. destruct t; cbn. intros ->. reflexivity. Qed.
Lemma readbk_byte_on t c k d : on t c (S k) -> t_bot t = false -> t_eot t = false ->
  exists w' b, nth_error c k = Some b /\ tape_readbk_byte t d = Ok (set_win t w', SOk, b) /\ on (set_win t w') c k /\
    w_ro w' = w_ro (t_win t).
Proof.
  intros [A [H [C [E K]]]] B ET. destruct (readbk_byte_ok t d A H C B) as [w' [O' [C' [R' [E' [D' X]]]]]].
  rewrite K, E in X. destruct X as [b [e [X1 [X2 [X3 X4]]]]]. rewrite (X2 ET) in X3.
  rewrite (set_eot_id (set_win t w') ET) in X3.
  exists w', b. split; [exact X1|]. split; [exact X3|]. split; [|exact R'].
  split; [exact A|]. split; [exact O'|]. split; [exact C'|]. split; [rewrite <- E; exact E'|exact X4].
Qed.
Lemma readbk_byte_start t c d : on t c 0 -> t_bot t = false ->
  exists w' b, tape_readbk_byte t d = Ok (set_bot (set_win t w') true, SBot, b) /\ on (set_bot (set_win t w') true) c 0 /\
    w_ro w' = w_ro (t_win t).
Proof.
  intros [A [H [C [E K]]]] B. destruct (readbk_byte_ok t d A H C B) as [w' [O' [C' [R' [E' [D' X]]]]]].
  rewrite K in X. destruct X as [b [X1 [X2 _]]].
  exists w', b. split; [exact X1|]. split; [|exact R'].
  split; [exact A|]. split; [exact O'|]. split; [exact C'|]. split; [rewrite <- E; exact E'|exact X2].
Qed.

(** *** Several bytes *)
Lemma read_bytes_on n : forall t c k, on t c k -> (k + n <= length c)%nat ->
  exists w', read_bytes n t = Ok (set_win t w', SOk, firstn n (skipn k c)) /\ on (set_win t w') c (k + n) /\
    w_ro w' = w_ro (t_win t).
Proof.
  induction n as [|n IH]; intros t c k O1 L.
  - exists (t_win t). cbn [read_bytes firstn]. rewrite Nat.add_0_r. destruct t; auto.
  - destruct (read_byte_on t c k 0 O1 ltac:(lia)) as [w1 [b [N [E1 [O2 R1]]]]].
    destruct (IH _ _ _ O2 ltac:(lia)) as [w2 [E2 [O3 R2]]].
    exists w2. cbn [read_bytes]. rewrite E1. cbn [bind]. rewrite E2. cbn [bind].
    rewrite (slice_cons c k b N). replace (k + S n)%nat with (S k + n)%nat by lia.
    split; [reflexivity|]. split; [exact O3|]. cbn in R2. congruence.
Qed.
Lemma on_le t c k : on t c k -> (k <= length c)%nat.
Proof. intros [_ [H [_ [E K]]]]. pose proof (cursor_le _ H). unfold at_byte, bytes_on in *. congruence. Qed.
Lemma read_bytes_end n : forall t c k, on t c k -> (length c < k + n)%nat ->
  exists w' l, read_bytes n t = Ok (set_eot (set_win t w') true, SEot, l) /\ on (set_eot (set_win t w') true) c (length c) /\
    w_ro w' = w_ro (t_win t).
Proof.
  induction n as [|n IH]; intros t c k O1 L; pose proof (on_le _ _ _ O1) as KL; [lia|].
  cbn [read_bytes]. destruct (Nat.eq_dec k (length c)) as [->|Hne].
  - destruct (read_byte_end t c 0 O1) as [w' [E [O2 R]]]. rewrite E. cbn [bind]. exists w', []. auto.
  - destruct (read_byte_on t c k 0 O1 ltac:(lia)) as [w1 [b [N [E1 [O2 R1]]]]].
    destruct (IH _ _ _ O2 ltac:(lia)) as [w2 [l [E2 [O3 R2]]]].
    exists w2, (b :: l). rewrite E1. cbn [bind]. rewrite E2. split; [reflexivity|]. split; [exact O3|]. cbn in R2. congruence.
Qed.
Lemma readbk_bytes_on n : forall t c k, on t c (k + n) -> t_bot t = false -> t_eot t = false ->
  exists w', readbk_bytes n t = Ok (set_win t w', SOk, rev (firstn n (skipn k c))) /\ on (set_win t w') c k /\
    w_ro w' = w_ro (t_win t).
Proof.
  induction n as [|n IH]; intros t c k O1 B ET.
  - exists (t_win t). cbn [readbk_bytes firstn rev]. rewrite Nat.add_0_r in O1. destruct t; auto.
  - replace (k + S n)%nat with (S (k + n)) in O1 by lia.
    destruct (readbk_byte_on t c (k + n) 0 O1 B ET) as [w1 [b [N [E1 [O2 R1]]]]].
    destruct (IH _ _ _ O2 B ET) as [w2 [E2 [O3 R2]]].
    exists w2. cbn [readbk_bytes]. rewrite E1. cbn [bind]. rewrite E2. cbn [bind].
    rewrite (slice_snoc c k n b N), rev_app_distr. split; [reflexivity|]. split; [exact O3|]. cbn in R2. congruence.
Qed.

(** *** Frames of a record, SIMH and E11 *)
Definition tap_like (f : tfmt) : Prop := f = TAP \/ f = E11.

Lemma read_frames_on n : forall t c k m, on t c k -> tap_like (t_fmt t) -> t_func t = FRead -> t_mark t = false ->
  0 <= t_lrecl t -> t_lrecl t + Z.of_nat m = t_orecl t -> t_orecl t < 4294967296 -> (k + m <= length c)%nat ->
  exists w' fr, let j := Nat.min n m in
    let t' := set_frame (set_lrecl (set_win t w') (t_lrecl t + Z.of_nat j)) fr in
    read_frames n t = Ok (t', if Nat.leb n m then SOk else SEob, firstn j (skipn k c)) /\ on t' c (k + j) /\
    w_ro w' = w_ro (t_win t).
Proof.
  induction n as [|n IH]; intros t c k m O1 TF FU MK L0 L1 L2 LC.
  - exists (t_win t), (t_frame t). cbn [read_frames Nat.min firstn Nat.leb].
    rewrite Z.add_0_r, Nat.add_0_r. destruct t; auto.
  - destruct m as [|m].
    + exists (t_win t), (t_frame t). cbn [read_frames Nat.min firstn Nat.leb].
      unfold tape_read_frame. pose proof O1 as [A _]. rewrite A, MK, FU. cbn [negb].
      rewrite Z.add_0_r, Nat.add_0_r. replace (t_orecl t <=? t_lrecl t) with true by lia.
      destruct TF as [F|F]; rewrite F; cbn [bind]; destruct t; auto.
    + cbn [read_frames Nat.min firstn].
      destruct (read_byte_on t c k 0 O1 ltac:(lia)) as [w1 [b [N [E1 [O2 R1]]]]].
      assert (E : exists fr, tape_read_frame t 0 =
        Ok (set_frame (set_lrecl (set_win t w1) (t_lrecl t + 1)) fr, SOk, b)).
      { unfold tape_read_frame. pose proof O1 as [A _]. rewrite A, MK, FU. cbn [negb].
        replace (t_orecl t <=? t_lrecl t) with false by lia. rewrite E1. cbn [bind].
        unfold u32. cbn [t_lrecl set_win]. rewrite Z.mod_small by lia.
        destruct TF as [F|F]; rewrite F; eexists; reflexivity. }
      destruct E as [fr1 E]. rewrite E. cbn [bind].
      destruct (IH (set_frame (set_lrecl (set_win t w1) (t_lrecl t + 1)) fr1) c (S k) m) as [w2 [fr2 [E2 [O3 R2]]]];
        cbn [t_lrecl t_orecl t_fmt t_func t_mark set_win set_lrecl set_frame]; auto; try lia.
      exists w2, fr2. cbn zeta in *. rewrite E2. cbn [bind]. rewrite (slice_cons c k b N).
      cbn [t_lrecl set_win set_lrecl set_frame] in *.
      replace (t_lrecl t + Z.of_nat (S (Nat.min n m))) with (t_lrecl t + 1 + Z.of_nat (Nat.min n m)) by lia.
      replace (k + S (Nat.min n m))%nat with (S k + Nat.min n m)%nat by lia.
      change (Nat.leb (S n) (S m)) with (Nat.leb n m).
      split; [reflexivity|]. split; [exact O3|]. cbn in R2. congruence.
Qed.

Lemma skip_forw_on n : forall t c k m d, on t c k -> tap_like (t_fmt t) -> t_func t = FRead -> t_mark t = false ->
  0 <= t_lrecl t -> t_lrecl t + Z.of_nat m = t_orecl t -> t_orecl t < 4294967296 -> (k + m <= length c)%nat -> (m <= n)%nat ->
  exists w' fr d', let t' := set_frame (set_lrecl (set_win t w') (t_orecl t)) fr in
    skip_forw n t d = Ok (t', d') /\ on t' c (k + m) /\ w_ro w' = w_ro (t_win t).
Proof.
  induction n as [|n IH]; intros t c k m d O1 TF FU MK L0 L1 L2 LC Hn.
  - exists (t_win t), (t_frame t), d. assert (m = O) by lia; subst m. cbn [skip_forw].
    replace (t_lrecl t <? t_orecl t) with false by lia. rewrite Nat.add_0_r.
    replace (t_orecl t) with (t_lrecl t) by lia. destruct t; auto.
  - destruct m as [|m].
    + exists (t_win t), (t_frame t), d. cbn [skip_forw].
      replace (t_lrecl t <? t_orecl t) with false by lia. rewrite Nat.add_0_r.
      replace (t_orecl t) with (t_lrecl t) by lia. destruct t; auto.
    + cbn [skip_forw]. replace (t_lrecl t <? t_orecl t) with true by lia.
      destruct (read_byte_on t c k d O1 ltac:(lia)) as [w1 [b [N [E1 [O2 R1]]]]].
      assert (E : exists fr, tape_read_frame t d =
        Ok (set_frame (set_lrecl (set_win t w1) (t_lrecl t + 1)) fr, SOk, b)).
      { unfold tape_read_frame. pose proof O1 as [A _]. rewrite A, MK, FU. cbn [negb].
        replace (t_orecl t <=? t_lrecl t) with false by lia. rewrite E1. cbn [bind].
        unfold u32. cbn [t_lrecl set_win]. rewrite Z.mod_small by lia.
        destruct TF as [F|F]; rewrite F; eexists; reflexivity. }
      destruct E as [fr1 E]. rewrite E. cbn [bind].
      destruct (IH (set_frame (set_lrecl (set_win t w1) (t_lrecl t + 1)) fr1) c (S k) m b) as [w2 [fr2 [d2 [E2 [O3 R2]]]]];
        cbn [t_lrecl t_orecl t_fmt t_func t_mark set_win set_lrecl set_frame]; auto; try lia.
      exists w2, fr2, d2. cbn zeta in *. rewrite E2.
      replace (k + S m)%nat with (S k + m)%nat by lia.
      split; [reflexivity|]. split; [exact O3|]. cbn in R2. congruence.
Qed.

(** Backwards: the frames in front of byte [k + m]. *)
Lemma read_frames_back n : forall t c k m, on t c (k + m) -> t_bot t = false -> t_eot t = false ->
  tap_like (t_fmt t) -> t_func t = FRdback -> t_mark t = false ->
  t_lrecl t = Z.of_nat m -> Z.of_nat m < 4294967296 ->
  exists w' fr, let j := Nat.min n m in
    let t' := set_frame (set_lrecl (set_win t w') (Z.of_nat (m - j))) fr in
    read_frames n t = Ok (t', if Nat.leb n m then SOk else SEob, firstn j (rev (firstn m (skipn k c)))) /\ on t' c (k + m - j) /\
    w_ro w' = w_ro (t_win t).
Proof.
  induction n as [|n IH]; intros t c k m O1 B ET TF FU MK L1 L2.
  - exists (t_win t), (t_frame t). cbn [read_frames Nat.min firstn Nat.leb].
    rewrite !Nat.sub_0_r, <- L1. destruct t; auto.
  - destruct m as [|m].
    + exists (t_win t), (t_frame t). cbn [read_frames Nat.min firstn Nat.leb rev].
      unfold tape_read_frame. pose proof O1 as [A _]. rewrite A, MK, FU. cbn [negb].
      rewrite Nat.add_0_r, !Nat.sub_0_r in *. rewrite L1. cbn [Z.of_nat Z.eqb].
      destruct TF as [F|F]; rewrite F; cbn [bind]; destruct t; cbn in *; rewrite L1; auto.
    + cbn [read_frames Nat.min].
      replace (k + S m)%nat with (S (k + m)) in * by lia.
      destruct (readbk_byte_on t c (k + m) 0 O1 B ET) as [w1 [b [N [E1 [O2 R1]]]]].
      assert (E : exists fr, tape_read_frame t 0 =
        Ok (set_frame (set_lrecl (set_win t w1) (Z.of_nat m)) fr, SOk, b)).
      { unfold tape_read_frame. pose proof O1 as [A _]. rewrite A, MK, FU. cbn [negb].
        replace (t_lrecl t =? 0) with false by lia. rewrite E1. cbn [bind].
        unfold u32. cbn [t_lrecl set_win]. rewrite L1, Z.mod_small by lia.
        replace (Z.of_nat (S m) - 1) with (Z.of_nat m) by lia.
        destruct TF as [F|F]; rewrite F; eexists; reflexivity. }
      destruct E as [fr1 E]. rewrite E. cbn [bind].
      destruct (IH (set_frame (set_lrecl (set_win t w1) (Z.of_nat m)) fr1) c k m) as [w2 [fr2 [E2 [O3 R2]]]];
        cbn [t_lrecl t_orecl t_fmt t_func t_mark t_bot t_eot set_win set_lrecl set_frame]; auto; try lia.
      exists w2, fr2. cbn zeta in *. rewrite E2. cbn [bind]. rewrite (slice_snoc c k m b N), rev_app_distr.
      cbn [rev app firstn].
      replace (S m - S (Nat.min n m))%nat with (m - Nat.min n m)%nat by lia.
      replace (S (k + m) - S (Nat.min n m))%nat with (k + m - Nat.min n m)%nat by lia.
      change (Nat.leb (S n) (S m)) with (Nat.leb n m).
      split; [reflexivity|]. split; [exact O3|]. cbn in R2. congruence.
Qed.
Lemma skip_back_on n : forall t c k m d, on t c (k + m) -> t_bot t = false -> t_eot t = false ->
  tap_like (t_fmt t) -> t_func t = FRdback -> t_mark t = false ->
  t_lrecl t = Z.of_nat m -> Z.of_nat m < 4294967296 -> (m <= n)%nat ->
  exists w' fr d', let t' := set_frame (set_lrecl (set_win t w') 0) fr in
    skip_back n t d = Ok (t', d') /\ on t' c k /\ w_ro w' = w_ro (t_win t).
Proof.
  induction n as [|n IH]; intros t c k m d O1 B ET TF FU MK L1 L2 Hn.
  - exists (t_win t), (t_frame t), d. assert (m = O) by lia; subst m. cbn [skip_back]. rewrite Nat.add_0_r in O1.
    replace (0 <? t_lrecl t) with false by lia. cbn in L1. rewrite <- L1 at 1. destruct t; cbn in *; rewrite L1; auto.
  - destruct m as [|m].
    + exists (t_win t), (t_frame t), d. cbn [skip_back]. rewrite Nat.add_0_r in O1.
      replace (0 <? t_lrecl t) with false by lia. cbn in L1. destruct t; cbn in *; rewrite L1; auto.
    + cbn [skip_back]. replace (0 <? t_lrecl t) with true by lia.
      replace (k + S m)%nat with (S (k + m)) in * by lia.
      destruct (readbk_byte_on t c (k + m) d O1 B ET) as [w1 [b [N [E1 [O2 R1]]]]].
      assert (E : exists fr, tape_read_frame t d =
        Ok (set_frame (set_lrecl (set_win t w1) (Z.of_nat m)) fr, SOk, b)).
      { unfold tape_read_frame. pose proof O1 as [A _]. rewrite A, MK, FU. cbn [negb].
        replace (t_lrecl t =? 0) with false by lia. rewrite E1. cbn [bind].
        unfold u32. cbn [t_lrecl set_win]. rewrite L1, Z.mod_small by lia.
        replace (Z.of_nat (S m) - 1) with (Z.of_nat m) by lia.
        destruct TF as [F|F]; rewrite F; eexists; reflexivity. }
      destruct E as [fr1 E]. rewrite E. cbn [bind].
      destruct (IH (set_frame (set_lrecl (set_win t w1) (Z.of_nat m)) fr1) c k m b) as [w2 [fr2 [d2 [E2 [O3 R2]]]]];
        cbn [t_lrecl t_orecl t_fmt t_func t_mark t_bot t_eot set_win set_lrecl set_frame]; auto; try lia.
      exists w2, fr2, d2. cbn zeta in *. rewrite E2.
      split; [reflexivity|]. split; [exact O3|]. cbn in R2. congruence.
Qed.
