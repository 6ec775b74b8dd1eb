(** Records and tape marks of the SIMH and E11 formats: reading forward and backward, writing. *)
From Verif Require Import Base.Bits Tape.Model Tape.Spec Tape.Window Tape.Records.

Lemma slice_mid (pre a post : list Z) k n : k = length pre -> n = length a -> firstn n (skipn k (pre ++ a ++ post)) = a.
Proof.
  intros -> ->. rewrite skipn_app, skipn_all, Nat.sub_diag. cbn [skipn app].
  rewrite firstn_app, firstn_all, Nat.sub_diag. cbn [firstn]. apply app_nil_r.
Qed.

(** Same drive, apart from window position, counters and the state of the operation. *)
Definition alike (t t' : tape) : Prop :=
  t_fmt t' = t_fmt t /\ t_ring t' = t_ring t /\ t_eot t' = t_eot t /\ w_ro (t_win t') = w_ro (t_win t).
Lemma alike_trans t t' t'' : alike t t' -> alike t' t'' -> alike t t''.
Proof. unfold alike. intuition congruence. Qed.

Definition pad (f : tfmt) (n : nat) : nat := match f with TAP => if Nat.odd n then 1 else 0 | _ => 0 end.
Lemma pad_encode f d : tap_like f ->
  exists p, encode1 f (Rec d) = le32 (Z.of_nat (length d)) ++ d ++ p ++ le32 (Z.of_nat (length d)) /\ length p = pad f (length d) /\
    p = repeat 0 (pad f (length d)).
Proof.
  intros [-> | ->]; cbn [encode1 pad].
  - exists (if Nat.odd (length d) then [0] else []). split; [reflexivity|]. destruct (Nat.odd (length d)); auto.
  - exists []. auto.
Qed.
Lemma odd_of_nat n : Z.odd (Z.of_nat n) = Nat.odd n.
Proof.
  rewrite <- Nat.negb_even, <- Z.negb_even. f_equal. apply eq_true_iff_eq. rewrite Z.even_spec, Nat.even_spec.
  split; intros [m H].
  - exists (Z.to_nat m). lia.
  - exists (Z.of_nat m). lia.
Qed.

(** *** Finish after reading forward: skip to the end of the record *)
Lemma finish_tap t c k m n junk N : on t c k -> tap_like (t_fmt t) -> t_func t = FRead -> t_mark t = false -> t_parity t = false ->
  0 <= t_lrecl t -> t_orecl t = Z.of_nat N -> t_lrecl t + Z.of_nat m = Z.of_nat N -> Z.of_nat N < 4294967296 ->
  (k + m + pad (t_fmt t) N + 4 <= length c)%nat -> (m <= n)%nat ->
  exists t', tape_finish_rec n junk t = Ok (t', SOk) /\ on t' c (k + m + pad (t_fmt t) N + 4) /\ alike t t' /\
    t_bot t' = t_bot t /\ t_mark t' = false /\ t_func t' = FNone.
Proof.
  intros O1 TF FU MK PA L0 OR LR LN LC Hn.
  destruct (skip_forw_on n t c k m junk O1 TF FU MK L0 ltac:(congruence) ltac:(lia) ltac:(lia) Hn) as [w1 [fr [d1 [E1 [O2 R1]]]]].
  cbn zeta in *. set (t1 := set_frame (set_lrecl (set_win t w1) (t_orecl t)) fr) in *.
  assert (S2 : exists t2, (match t_fmt t1 with
                   | TAP => if Z.odd (t_orecl t1) then
                              let* y := tape_read_byte t1 0 in let '(t', _, _) := y in Ok t'
                            else Ok t1
                   | _ => Ok t1
                   end) = Ok t2 /\ on t2 c (k + m + pad (t_fmt t) N) /\ alike t t2 /\ t_bot t2 = t_bot t /\
                   t_mark t2 = false /\ t_parity t2 = false).
  { change (t_fmt t1) with (t_fmt t). change (t_orecl t1) with (t_orecl t). rewrite OR, odd_of_nat.
    destruct TF as [F|F]; rewrite F in *; cbn [pad] in *.
    - destruct (Nat.odd N).
      + destruct (read_byte_on t1 c (k + m) 0 O2 ltac:(lia)) as [w2 [b [_ [E2 [O3 R2]]]]]. rewrite E2. cbn [bind].
        exists (set_win t1 w2). split; [reflexivity|]. replace (k + m + 1)%nat with (S (k + m)) by lia.
        split; [exact O3|]. split; [|cbn; auto]. unfold alike. cbn. cbn in R2. rewrite F. intuition congruence.
      + exists t1. split; [reflexivity|]. rewrite Nat.add_0_r. split; [exact O2|]. split; [|cbn; auto].
        unfold alike. cbn. intuition congruence.
    - exists t1. split; [reflexivity|]. rewrite Nat.add_0_r. split; [exact O2|]. split; [|cbn; auto].
      unfold alike. cbn. intuition congruence. }
  destruct S2 as [t2 [E2 [O3 [AL [B2 [M2 P2]]]]]].
  destruct (read_bytes_on 4 t2 c _ O3 LC) as [w4 [E4 [O5 R5]]].
  exists (set_func (set_lrecl (set_win t2 w4) (word_of (firstn 4 (skipn (k + m + pad (t_fmt t) N) c)))) FNone).
  assert (A : t_att t = true) by apply O1.
  split.
  { unfold tape_finish_rec. rewrite A, MK, FU. cbn [negb].
    destruct TF as [F|F]; rewrite F; rewrite E1; cbn [bind]; fold t1;
      rewrite E2; cbn [bind]; rewrite E4; cbn [bind]; unfold finish_end; cbn [t_parity set_lrecl set_win]; rewrite P2; rewrite ?F; reflexivity. }
  split; [exact O5|]. split; [|cbn; auto].
  eapply alike_trans; [exact AL|]. unfold alike. cbn. intuition congruence.
Qed.

(** *** Start of a record or a mark *)
Lemma read_forw_rec t f pre d post : let c := pre ++ encode1 f (Rec d) ++ post in
  on t c (length pre) -> tap_like f -> t_fmt t = f -> t_eot t = false -> good_item f (Rec d) ->
  exists t', tape_read_forw t = Ok (t', SOk) /\ on t' c (length pre + 4) /\ alike t t' /\ t_bot t' = false /\ t_func t' = FRead /\
    t_mark t' = false /\ t_parity t' = false /\ t_lrecl t' = 0 /\ t_orecl t' = Z.of_nat (length d).
Proof.
  intros c O1 TL F ET G.
  assert (GL : 0 < Z.of_nat (length d) < 4294967295).
  { destruct G as [G1 G2]. destruct d; [congruence|]. destruct TL as [-> | ->]; destruct G2 as [_ G2]; cbn [length] in *; lia. }
  destruct (pad_encode f d TL) as [p [Ep [Lp _]]].
  assert (Ec : c = pre ++ le32 (Z.of_nat (length d)) ++ (d ++ p ++ le32 (Z.of_nat (length d))) ++ post).
  { unfold c. rewrite Ep, <- !app_assoc. reflexivity. }
  set (t0 := set_srec (set_func (set_mark (set_bot (set_parity t false) false) false) FRead) (Z.of_nat (length pre))).
  assert (O2 : on t0 c (length pre)) by exact O1.
  destruct (read_bytes_on 4 t0 c _ O2) as [w1 [E1 [O3 R1]]].
  { rewrite Ec, !app_length, le32_length. lia. }
  rewrite Ec in E1 at 1. rewrite slice_mid in E1 by reflexivity.
  exists (set_lrecl (set_orecl (set_lrecl (set_win t0 w1) (Z.of_nat (length d))) (Z.of_nat (length d))) 0).
  split.
  { unfold tape_read_forw. assert (A : t_att t = true) by apply O1. rewrite A. cbn [negb]. cbn zeta.
    change (t_eot (set_mark (set_bot (set_parity t false) false) false)) with (t_eot t). rewrite ET.
    change (cursor (t_win (set_func (set_mark (set_bot (set_parity t false) false) false) FRead))) with (at_byte t).
    replace (at_byte t) with (length pre) by (symmetry; apply O1). fold t0.
    change (t_fmt (set_func _ FRead)) with (t_fmt t). rewrite F.
    destruct TL as [-> | ->]; rewrite E1; cbn [bind]; rewrite word_of_le32 by lia;
      replace (Z.of_nat (length d) =? 4294967295) with false by lia; replace (Z.of_nat (length d) =? 0) with false by lia; reflexivity. }
  split; [exact O3|]. split; [unfold alike; cbn; intuition congruence|]. cbn. auto 10.
Qed.
Lemma read_forw_mark t f pre post : let c := pre ++ encode1 f Mark ++ post in
  on t c (length pre) -> tap_like f -> t_fmt t = f -> t_eot t = false ->
  exists t', tape_read_forw t = Ok (t', SMark) /\ on t' c (length pre + 4) /\ alike t t' /\ t_bot t' = false /\
    t_mark t' = true.
Proof.
  intros c O1 TL F ET.
  assert (Ec : c = pre ++ [0; 0; 0; 0] ++ post) by (unfold c; destruct TL as [-> | ->]; reflexivity).
  set (t0 := set_srec (set_func (set_mark (set_bot (set_parity t false) false) false) FRead) (Z.of_nat (length pre))).
  assert (O2 : on t0 c (length pre)) by exact O1.
  destruct (read_bytes_on 4 t0 c _ O2) as [w1 [E1 [O3 R1]]].
  { rewrite Ec, !app_length. cbn [length]. lia. }
  rewrite Ec in E1 at 1. rewrite slice_mid in E1 by reflexivity.
  eexists. split.
  { unfold tape_read_forw. assert (A : t_att t = true) by apply O1. rewrite A. cbn [negb]. cbn zeta.
    change (t_eot (set_mark (set_bot (set_parity t false) false) false)) with (t_eot t). rewrite ET.
    change (cursor (t_win (set_func (set_mark (set_bot (set_parity t false) false) false) FRead))) with (at_byte t).
    replace (at_byte t) with (length pre) by (symmetry; apply O1). fold t0.
    change (t_fmt (set_func _ FRead)) with (t_fmt t). rewrite F.
    destruct TL as [-> | ->]; rewrite E1; cbn [bind]; change (word_of [0; 0; 0; 0]) with 0; cbn [Z.eqb]; reflexivity. }
  split; [exact O3|]. split; [unfold alike; cbn; intuition congruence|]. cbn. auto.
Qed.
Lemma read_forw_end t c : on t c (length c) -> tap_like (t_fmt t) -> t_eot t = false ->
  exists t', tape_read_forw t = Ok (t', SEot) /\ on t' c (length c) /\ t_fmt t' = t_fmt t /\ t_bot t' = false /\ t_eot t' = true.
Proof.
  intros O1 TL ET.
  set (t0 := set_srec (set_func (set_mark (set_bot (set_parity t false) false) false) FRead) (Z.of_nat (length c))).
  assert (O2 : on t0 c (length c)) by exact O1.
  destruct (read_bytes_end 4 t0 c _ O2 ltac:(lia)) as [w1 [l [E1 [O3 R1]]]].
  eexists. split.
  { unfold tape_read_forw. assert (A : t_att t = true) by apply O1. rewrite A. cbn [negb]. cbn zeta.
    change (t_eot (set_mark (set_bot (set_parity t false) false) false)) with (t_eot t). rewrite ET.
    change (cursor (t_win (set_func (set_mark (set_bot (set_parity t false) false) false) FRead))) with (at_byte t).
    replace (at_byte t) with (length c) by (symmetry; apply O1). fold t0.
    change (t_fmt (set_func _ FRead)) with (t_fmt t).
    destruct TL as [F|F]; rewrite F; rewrite E1; reflexivity. }
  split; [exact O3|]. cbn. auto.
Qed.
Lemma finish_mark t n junk : t_att t = true -> t_mark t = true -> tap_like (t_fmt t) ->
  tape_finish_rec n junk t = Ok (set_mark (set_func t FNone) false, SOk).
Proof. intros A M TL. unfold tape_finish_rec. rewrite A, M. destruct TL as [F|F]; rewrite F; reflexivity. Qed.

(** *** One item forward *)
Lemma encode1_tap_len f d : tap_like f -> length (encode1 f (Rec d)) = (4 + length d + pad f (length d) + 4)%nat.
Proof. intros TL. destruct (pad_encode f d TL) as [p [-> [L _]]]. rewrite !app_length, !le32_length, L. lia. Qed.

(** Any number of frames read, then finished. *)
Lemma read_part_tap t f pre d post n fuel junk : let c := pre ++ encode1 f (Rec d) ++ post in
  on t c (length pre) -> tap_like f -> t_fmt t = f -> t_eot t = false -> good_item f (Rec d) -> (length d - n <= fuel)%nat ->
  exists t1 t2 t3,
    tape_read_forw t = Ok (t1, SOk) /\
    read_frames n t1 = Ok (t2, if Nat.leb n (length d) then SOk else SEob, firstn n d) /\
    tape_finish_rec fuel junk t2 = Ok (t3, SOk) /\ on t3 c (length pre + length (encode1 f (Rec d))) /\ alike t t3 /\ t_bot t3 = false.
Proof.
  intros c O1 TL F ET G Hf.
  destruct (read_forw_rec t f pre d post O1 TL F ET G) as [t1 [E1 [O2 [AL [B1 [FU [MK [PA [LR OR]]]]]]]]].
  destruct (pad_encode f d TL) as [p [Ep [Lp _]]].
  assert (Ec : c = (pre ++ le32 (Z.of_nat (length d))) ++ d ++ (p ++ le32 (Z.of_nat (length d)) ++ post)).
  { unfold c. rewrite Ep, <- !app_assoc. reflexivity. }
  assert (GL : Z.of_nat (length d) < 4294967295).
  { destruct G as [_ G2]. destruct TL as [-> | ->]; apply G2. }
  assert (Lc : (length pre + 4 + length d + pad f (length d) + 4 <= length c)%nat).
  { rewrite Ec, !app_length, !le32_length, Lp. lia. }
  assert (TL1 : tap_like (t_fmt t1)) by (destruct AL as [-> _]; rewrite F; exact TL).
  assert (HLO : t_lrecl t1 + Z.of_nat (length d) = t_orecl t1) by lia.
  destruct (read_frames_on n t1 c (length pre + 4) (length d) O2 TL1 FU MK ltac:(lia) HLO ltac:(lia) ltac:(lia)) as [w2 [fr [E2 [O3 R3]]]].
  cbn zeta in *. set (j := Nat.min n (length d)) in *.
  set (t2 := set_frame (set_lrecl (set_win t1 w2) (t_lrecl t1 + Z.of_nat j)) fr) in *.
  assert (Ed : firstn j (skipn (length pre + 4) c) = firstn n d).
  { rewrite Ec. assert (Lk : (length pre + 4)%nat = length (pre ++ le32 (Z.of_nat (length d)))) by (rewrite app_length, le32_length; lia).
    rewrite Lk, skipn_app, skipn_all, Nat.sub_diag. cbn [skipn app]. rewrite firstn_app. unfold j.
    replace (Nat.min n (length d) - length d)%nat with O by lia. cbn [firstn]. rewrite app_nil_r.
    destruct (Nat.le_ge_cases n (length d)); [rewrite Nat.min_l by lia; reflexivity|].
    rewrite Nat.min_r by lia. rewrite firstn_all. rewrite firstn_all2 by lia. reflexivity. }
  rewrite Ed in E2.
  assert (AL2 : alike t t2).
  { eapply alike_trans; [exact AL|]. unfold alike. cbn. intuition congruence. }
  assert (F2 : t_fmt t2 = f) by (destruct AL2 as [-> _]; exact F).
  destruct (finish_tap t2 c (length pre + 4 + j) (length d - j) fuel junk (length d)) as [t3 [E3 [O4 [AL3 [B3 _]]]]].
  - exact O3.
  - rewrite F2. exact TL.
  - exact FU.
  - exact MK.
  - exact PA.
  - cbn. lia.
  - exact OR.
  - cbn. rewrite LR. unfold j. lia.
  - lia.
  - rewrite F2. unfold j. lia.
  - unfold j. lia.
  - exists t1, t2, t3. split; [exact E1|]. split; [exact E2|]. split; [exact E3|].
    rewrite F2 in O4. rewrite encode1_tap_len by exact TL.
    replace (length pre + (4 + length d + pad f (length d) + 4))%nat with (length pre + 4 + j + (length d - j) + pad f (length d) + 4)%nat
      by (unfold j; lia).
    split; [exact O4|]. split; [eapply alike_trans; eassumption|]. rewrite B3. exact B1.
Qed.

Lemma read_item_tap t f pre x post n junk : let c := pre ++ encode1 f x ++ post in
  on t c (length pre) -> tap_like f -> t_fmt t = f -> t_eot t = false -> good_item f x ->
  match x with Rec d => (length d < n)%nat | Mark => True end ->
  exists t', read_item n junk false t = Ok (t', GItem x) /\ on t' c (length pre + length (encode1 f x)) /\ alike t t' /\ t_bot t' = false.
Proof.
  intros c O1 TL F ET G Hn. unfold read_item. destruct x as [d|].
  - destruct (read_part_tap t f pre d post n n junk O1 TL F ET G ltac:(lia)) as [t1 [t2 [t3 [E1 [E2 [E3 [O2 [AL B]]]]]]]].
    exists t3. rewrite E1. cbn [bind]. rewrite E2. cbn [bind].
    destruct (Nat.leb_spec n (length d)); [lia|]. rewrite E3. cbn [bind]. rewrite firstn_all2 by lia. auto.
  - destruct (read_forw_mark t f pre post O1 TL F ET) as [t1 [E1 [O2 [AL [B M]]]]].
    exists (set_mark (set_func t1 FNone) false). rewrite E1. cbn [bind].
    rewrite finish_mark; [|apply O2|exact M|destruct AL as [-> _]; rewrite F; exact TL]. cbn [bind].
    split; [reflexivity|]. replace (length (encode1 f Mark)) with 4%nat by (destruct TL as [-> | ->]; reflexivity).
    split; [exact O2|]. split; [exact AL|exact B].
Qed.

Definition fits (n : nat) (l : list item) : Prop :=
  Forall (fun x => match x with Rec d => (length d < n)%nat | Mark => True end) l.

Lemma read_items_tap l : forall t f pre post n junk, let c := pre ++ encode f l ++ post in
  on t c (length pre) -> tap_like f -> t_fmt t = f -> t_eot t = false -> Forall (good_item f) l -> fits n l ->
  exists t', read_items (length l) n junk false t = Ok (t', map GItem l) /\ on t' c (length pre + length (encode f l)) /\ alike t t' /\
    (l <> [] -> t_bot t' = false).
Proof.
  induction l as [|x l IH]; intros t f pre post n junk c O1 TL F ET G Hn.
  - exists t. cbn [read_items map encode flat_map length]. rewrite Nat.add_0_r. split; [reflexivity|]. split; [exact O1|].
    split; [unfold alike; auto|congruence].
  - inversion G as [|? ? G1 G2]; subst. inversion Hn as [|? ? N1 N2]; subst.
    assert (Ec : c = pre ++ encode1 (t_fmt t) x ++ (encode (t_fmt t) l ++ post)).
    { unfold c. unfold encode. cbn [flat_map]. rewrite <- !app_assoc. reflexivity. }
    rewrite Ec in O1.
    destruct (read_item_tap t (t_fmt t) pre x (encode (t_fmt t) l ++ post) n junk O1 TL eq_refl ET G1 N1) as [t1 [E1 [O2 [AL B1]]]].
    assert (Ec2 : c = (pre ++ encode1 (t_fmt t) x) ++ encode (t_fmt t) l ++ post) by (rewrite Ec, <- !app_assoc; reflexivity).
    rewrite <- Ec, Ec2, <- app_length in O2.
    pose proof AL as [F1 [_ [ET1 _]]].
    destruct (IH t1 (t_fmt t) (pre ++ encode1 (t_fmt t) x) post n junk O2 TL F1 ltac:(congruence) G2 N2) as [t2 [E2 [O3 [AL2 B2]]]].
    exists t2. cbn [read_items length map]. rewrite E1. cbn [bind]. rewrite E2. cbn [bind]. split; [reflexivity|].
    rewrite <- Ec2 in O3. rewrite app_length in O3. unfold encode at 1. cbn [flat_map]. rewrite app_length.
    replace (length pre + (length (encode1 (t_fmt t) x) + length (flat_map (encode1 (t_fmt t)) l)))%nat
      with (length pre + length (encode1 (t_fmt t) x) + length (encode (t_fmt t) l))%nat by (unfold encode; lia).
    split; [exact O3|]. split; [eapply alike_trans; eassumption|]. intros _. destruct l; [|apply B2; discriminate].
    cbn in E2. injection E2 as <-. exact B1.
Qed.
Lemma read_items_end t f n junk k : on t k (length k) -> tap_like f -> t_fmt t = f -> t_eot t = false ->
  exists t', read_item n junk false t = Ok (t', GEnd).
Proof.
  intros O1 TL F ET. rewrite <- F in TL. destruct (read_forw_end t k O1 TL ET) as [t' [E _]].
  exists t'. unfold read_item. rewrite E. reflexivity.
Qed.
Lemma read_items_app a : forall b n junk back t t1 l1 t2 l2,
  read_items a n junk back t = Ok (t1, l1) -> read_items b n junk back t1 = Ok (t2, l2) ->
  read_items (a + b) n junk back t = Ok (t2, l1 ++ l2).
Proof.
  induction a as [|a IH]; intros b n junk back t t1 l1 t2 l2 E1 E2.
  - cbn in E1. injection E1 as -> <-. exact E2.
  - cbn [read_items plus] in *. destruct (read_item n junk back t) as [[t' g]| |]; cbn [bind] in *; try discriminate.
    destruct (read_items a n junk back t') as [[t'' l]| |] eqn:E; cbn [bind] in *; try discriminate.
    injection E1 as -> <-. rewrite (IH _ _ _ _ _ _ _ _ _ E E2). reflexivity.
Qed.

(** *** Backwards *)
Lemma read_back_rec t f pre d post : let c := pre ++ encode1 f (Rec d) ++ post in
  on t c (length pre + length (encode1 f (Rec d))) -> tap_like f -> t_fmt t = f -> t_bot t = false -> good_item f (Rec d) ->
  exists t', tape_read_back t = Ok (t', SOk) /\ on t' c (length pre + 4 + length d) /\ alike (set_eot t false) t' /\ t_bot t' = false /\
    t_func t' = FRdback /\ t_mark t' = false /\ t_parity t' = false /\ t_lrecl t' = Z.of_nat (length d).
Proof.
  intros c O1 TL F BT G.
  assert (GL : 0 < Z.of_nat (length d) < 4294967295).
  { destruct G as [G1 G2]. destruct d; [congruence|]. destruct TL as [-> | ->]; destruct G2 as [_ G2]; cbn [length] in *; lia. }
  destruct (pad_encode f d TL) as [p [Ep [Lp _]]]. set (lw := le32 (Z.of_nat (length d))) in *.
  assert (Ec : c = (pre ++ lw ++ d ++ p) ++ lw ++ post).
  { unfold c. rewrite Ep, <- !app_assoc. reflexivity. }
  assert (Lk : (length pre + length (encode1 f (Rec d)))%nat = (length (pre ++ lw ++ d ++ p) + 4)%nat).
  { rewrite Ep, !app_length. change (length lw) with 4%nat. lia. }
  rewrite Lk in O1.
  set (k := length (pre ++ lw ++ d ++ p)) in *.
  set (t0 := set_srec (set_func (set_parity (set_mark (set_eot t false) false) false) FRdback) (Z.of_nat (k + 4))).
  assert (O2 : on t0 c (k + 4)) by exact O1.
  destruct (readbk_bytes_on 4 t0 c k O2 BT eq_refl) as [w1 [E1 [O3 R1]]].
  assert (Es : firstn 4 (skipn k c) = lw) by (rewrite Ec; apply slice_mid; reflexivity).
  rewrite Es in E1.
  assert (Lk2 : k = (length pre + 4 + length d + pad f (length d))%nat).
  { unfold k. rewrite !app_length. change (length lw) with 4%nat. lia. }
  set (t2 := set_lrecl (set_win t0 w1) (Z.of_nat (length d))).
  assert (S3 : exists w3, (match f with
                   | TAP => if Z.odd (Z.of_nat (length d)) then
                              let* y := tape_readbk_byte t2 0 in let '(t', _, _) := y in Ok t'
                            else Ok t2
                   | _ => Ok t2
                   end) = Ok (set_win t2 w3) /\ on (set_win t2 w3) c (length pre + 4 + length d) /\ w_ro w3 = w_ro (t_win t)).
  { rewrite odd_of_nat. destruct TL as [-> | ->]; cbn [pad] in Lk2.
    - destruct (Nat.odd (length d)).
      + rewrite Lk2 in O3. replace (length pre + 4 + length d + 1)%nat with (S (length pre + 4 + length d)) in O3 by lia.
        destruct (readbk_byte_on t2 c _ 0 O3 BT eq_refl) as [w3 [b [_ [E3 [O4 R3]]]]].
        exists w3. rewrite E3. split; [reflexivity|]. split; [exact O4|]. cbn in R3, R1. congruence.
      + exists w1. rewrite Lk2, Nat.add_0_r in O3. split; [reflexivity|]. split; [exact O3|]. exact R1.
    - exists w1. rewrite Lk2, Nat.add_0_r in O3. split; [reflexivity|]. split; [exact O3|]. exact R1. }
  destruct S3 as [w3 [E3 [O4 R3]]].
  exists (set_orecl (set_win t2 w3) (Z.of_nat (length d))).
  split.
  { unfold tape_read_back. assert (A : t_att t = true) by apply O1. rewrite A. cbn [negb]. cbn zeta.
    change (t_bot (set_mark (set_eot t false) false)) with (t_bot t). rewrite BT.
    change (cursor (t_win (set_func (set_parity (set_mark (set_eot t false) false) false) FRdback))) with (at_byte t).
    replace (at_byte t) with (k + 4)%nat by (symmetry; apply O1). fold t0.
    change (t_fmt (set_func _ FRdback)) with (t_fmt t). change (t_fmt t0) with (t_fmt t). rewrite F.
    assert (X : (let* x := readbk_bytes 4 t0 in
     let '(t1, s, l) := x in
     match s with
     | SOk =>
         let n := word_of (rev l) in
         let t2 := set_lrecl t1 n in
         if n =? 4294967295 then Ok (t2, SOk) else
         let* t3 := match f with
                   | TAP => if Z.odd n then
                              let* y := tape_readbk_byte t2 0 in let '(t', _, _) := y in Ok t'
                            else Ok t2
                   | _ => Ok t2
                   end in
         if n =? 0 then Ok (set_mark (set_frame t3 (t_frame t3 - 1200)) true, SMark) else Ok (set_orecl t3 n, SOk)
     | _ => Ok (t1, s)
     end) = Ok (set_orecl (set_win t2 w3) (Z.of_nat (length d)), SOk)).
    { rewrite E1. cbn [bind]. rewrite rev_involutive. unfold lw. rewrite word_of_le32 by lia. cbn zeta.
      replace (Z.of_nat (length d) =? 4294967295) with false by lia. fold t2. rewrite E3. cbn [bind].
      replace (Z.of_nat (length d) =? 0) with false by lia. reflexivity. }
    destruct TL as [-> | ->]; exact X. }
  split; [exact O4|]. split; [unfold alike; cbn; intuition congruence|]. cbn. auto 10.
Qed.
Lemma read_back_mark t f pre post : let c := pre ++ encode1 f Mark ++ post in
  on t c (length pre + 4) -> tap_like f -> t_fmt t = f -> t_bot t = false ->
  exists t', tape_read_back t = Ok (t', SMark) /\ on t' c (length pre) /\ alike (set_eot t false) t' /\ t_bot t' = false /\ t_mark t' = true.
Proof.
  intros c O1 TL F BT.
  assert (Ec : c = pre ++ [0; 0; 0; 0] ++ post) by (unfold c; destruct TL as [-> | ->]; reflexivity).
  set (t0 := set_srec (set_func (set_parity (set_mark (set_eot t false) false) false) FRdback) (Z.of_nat (length pre + 4))).
  assert (O2 : on t0 c (length pre + 4)) by exact O1.
  destruct (readbk_bytes_on 4 t0 c (length pre) O2 BT eq_refl) as [w1 [E1 [O3 R1]]].
  rewrite Ec in E1 at 1. rewrite slice_mid in E1 by reflexivity.
  eexists. split.
  { unfold tape_read_back. assert (A : t_att t = true) by apply O1. rewrite A. cbn [negb]. cbn zeta.
    change (t_bot (set_mark (set_eot t false) false)) with (t_bot t). rewrite BT.
    change (cursor (t_win (set_func (set_parity (set_mark (set_eot t false) false) false) FRdback))) with (at_byte t).
    replace (at_byte t) with (length pre + 4)%nat by (symmetry; apply O1). fold t0.
    change (t_fmt (set_func _ FRdback)) with (t_fmt t). change (t_fmt t0) with (t_fmt t). rewrite F.
    destruct TL as [-> | ->]; rewrite E1; cbn [bind]; change (word_of (rev (rev [0; 0; 0; 0]))) with 0; cbn [Z.eqb Z.odd bind]; reflexivity. }
  split; [exact O3|]. split; [unfold alike; cbn; intuition congruence|]. cbn. auto.
Qed.
Lemma readbk_bytes_start t c n : on t c 0 -> t_bot t = false ->
  exists w' l, readbk_bytes (S n) t = Ok (set_bot (set_win t w') true, SBot, l) /\ on (set_bot (set_win t w') true) c 0 /\
    w_ro w' = w_ro (t_win t).
Proof.
  intros O1 B. destruct (readbk_byte_start t c 0 O1 B) as [w' [b [E [O2 R]]]]. cbn [readbk_bytes]. rewrite E. cbn [bind].
  exists w', []. auto.
Qed.
Lemma read_back_start t c : on t c 0 -> tap_like (t_fmt t) -> t_bot t = false ->
  exists t', tape_read_back t = Ok (t', SBot) /\ on t' c 0 /\ alike (set_eot t false) t' /\ t_bot t' = true.
Proof.
  intros O1 TL BT.
  set (t0 := set_srec (set_func (set_parity (set_mark (set_eot t false) false) false) FRdback) (Z.of_nat 0)).
  assert (O2 : on t0 c 0) by exact O1.
  destruct (readbk_bytes_start t0 c 3 O2 BT) as [w1 [l [E1 [O3 R1]]]].
  eexists. split.
  { unfold tape_read_back. assert (A : t_att t = true) by apply O1. rewrite A. cbn [negb]. cbn zeta.
    change (t_bot (set_mark (set_eot t false) false)) with (t_bot t). rewrite BT.
    change (cursor (t_win (set_func (set_parity (set_mark (set_eot t false) false) false) FRdback))) with (at_byte t).
    replace (at_byte t) with O by (symmetry; apply O1). fold t0.
    change (t_fmt (set_func _ FRdback)) with (t_fmt t).
    destruct TL as [F|F]; rewrite F; rewrite E1; reflexivity. }
  split; [exact O3|]. split; [unfold alike; cbn; intuition congruence|reflexivity].
Qed.

Lemma finish_tap_back t c k m n junk : on t c (k + 4 + m) -> t_bot t = false -> t_eot t = false ->
  tap_like (t_fmt t) -> t_func t = FRdback -> t_mark t = false -> t_parity t = false ->
  t_lrecl t = Z.of_nat m -> Z.of_nat m < 4294967296 -> (m <= n)%nat ->
  exists t', tape_finish_rec n junk t = Ok (t', SOk) /\ on t' c k /\ alike t t' /\ t_bot t' = false.
Proof.
  intros O1 BT ET TL FU MK PA LR LN Hn.
  destruct (skip_back_on n t c (k + 4) m junk O1 BT ET TL FU MK LR LN Hn) as [w1 [fr [d1 [E1 [O2 R1]]]]]. cbn zeta in *.
  set (t1 := set_frame (set_lrecl (set_win t w1) 0) fr) in *.
  destruct (readbk_bytes_on 4 t1 c k O2 BT ET) as [w2 [E2 [O3 R2]]].
  eexists. split.
  { unfold tape_finish_rec. assert (A : t_att t = true) by apply O1. rewrite A, MK, FU. cbn [negb].
    destruct TL as [F|F]; rewrite F; rewrite E1; cbn [bind]; rewrite E2; cbn [bind]; unfold finish_end;
      cbn [t_parity set_lrecl set_win set_frame t1]; rewrite PA; reflexivity. }
  split; [exact O3|]. split; [|exact BT]. unfold alike. cbn. cbn in R2. intuition congruence.
Qed.

Lemma read_part_back t f pre d post n fuel junk : let c := pre ++ encode1 f (Rec d) ++ post in
  on t c (length pre + length (encode1 f (Rec d))) -> tap_like f -> t_fmt t = f -> t_bot t = false -> good_item f (Rec d) ->
  (length d - n <= fuel)%nat ->
  exists t1 t2 t3,
    tape_read_back t = Ok (t1, SOk) /\
    read_frames n t1 = Ok (t2, if Nat.leb n (length d) then SOk else SEob, firstn n (rev d)) /\
    tape_finish_rec fuel junk t2 = Ok (t3, SOk) /\ on t3 c (length pre) /\ alike (set_eot t false) t3 /\ t_bot t3 = false.
Proof.
  intros c O1 TL F BT G Hf.
  destruct (read_back_rec t f pre d post O1 TL F BT G) as [t1 [E1 [O2 [AL [B1 [FU [MK [PA LR]]]]]]]].
  destruct (pad_encode f d TL) as [p [Ep [Lp _]]].
  assert (Ec : c = (pre ++ le32 (Z.of_nat (length d))) ++ d ++ (p ++ le32 (Z.of_nat (length d)) ++ post)).
  { unfold c. rewrite Ep, <- !app_assoc. reflexivity. }
  assert (GL : Z.of_nat (length d) < 4294967295).
  { destruct G as [_ G2]. destruct TL as [-> | ->]; apply G2. }
  pose proof AL as [F1 [_ [ET1 _]]]. cbn in F1, ET1.
  assert (TL1 : tap_like (t_fmt t1)) by (rewrite F1, F; exact TL).
  destruct (read_frames_back n t1 c (length pre + 4) (length d) O2 B1 ET1 TL1 FU MK LR ltac:(lia)) as [w2 [fr [E2 [O3 R3]]]].
  cbn zeta in *. set (j := Nat.min n (length d)) in *.
  set (t2 := set_frame (set_lrecl (set_win t1 w2) (Z.of_nat (length d - j))) fr) in *.
  assert (Ed : firstn j (rev (firstn (length d) (skipn (length pre + 4) c))) = firstn n (rev d)).
  { rewrite Ec. rewrite slice_mid; [|rewrite app_length, le32_length; lia|reflexivity]. unfold j.
    destruct (Nat.le_ge_cases n (length d)); [rewrite Nat.min_l by lia; reflexivity|].
    rewrite Nat.min_r by lia. rewrite !firstn_all2 by (rewrite rev_length; lia). reflexivity. }
  rewrite Ed in E2.
  assert (AL2 : alike (set_eot t false) t2).
  { eapply alike_trans; [exact AL|]. unfold alike. cbn. intuition congruence. }
  destruct (finish_tap_back t2 c (length pre) (length d - j) fuel junk) as [t3 [E3 [O4 [AL3 B3]]]].
  - replace (length pre + 4 + (length d - j))%nat with (length pre + 4 + length d - j)%nat by (unfold j; lia). exact O3.
  - exact B1.
  - exact ET1.
  - exact TL1.
  - exact FU.
  - exact MK.
  - exact PA.
  - reflexivity.
  - lia.
  - unfold j. lia.
  - exists t1, t2, t3. split; [exact E1|]. split; [exact E2|]. split; [exact E3|].
    split; [exact O4|]. split; [eapply alike_trans; eassumption|exact B3].
Qed.

Lemma read_item_tap_back t f pre x post n junk : let c := pre ++ encode1 f x ++ post in
  on t c (length pre + length (encode1 f x)) -> tap_like f -> t_fmt t = f -> t_bot t = false -> good_item f x ->
  match x with Rec d => (length d < n)%nat | Mark => True end ->
  exists t', read_item n junk true t = Ok (t', GItem (mirror x)) /\ on t' c (length pre) /\ alike (set_eot t false) t' /\ t_bot t' = false.
Proof.
  intros c O1 TL F BT G Hn. unfold read_item. destruct x as [d|].
  - destruct (read_part_back t f pre d post n n junk O1 TL F BT G ltac:(lia)) as [t1 [t2 [t3 [E1 [E2 [E3 [O2 [AL B]]]]]]]].
    exists t3. rewrite E1. cbn [bind]. rewrite E2. cbn [bind].
    destruct (Nat.leb_spec n (length d)); [lia|]. rewrite E3. cbn [bind mirror].
    rewrite firstn_all2 by (rewrite rev_length; lia). auto.
  - replace (length (encode1 f Mark)) with 4%nat in O1 by (destruct TL as [-> | ->]; reflexivity).
    destruct (read_back_mark t f pre post O1 TL F BT) as [t1 [E1 [O2 [AL [B M]]]]].
    exists (set_mark (set_func t1 FNone) false). rewrite E1. cbn [bind mirror].
    rewrite finish_mark; [|apply O2|exact M|destruct AL as [-> _]; cbn; rewrite F; exact TL]. cbn [bind].
    split; [reflexivity|]. split; [exact O2|]. split; [exact AL|exact B].
Qed.

Lemma read_items_tap_back l : forall t f pre post n junk, let c := pre ++ encode f l ++ post in
  on t c (length pre + length (encode f l)) -> tap_like f -> t_fmt t = f -> t_bot t = false -> Forall (good_item f) l -> fits n l ->
  exists t', read_items (length l) n junk true t = Ok (t', map GItem (rev (map mirror l))) /\ on t' c (length pre) /\
    t_fmt t' = f /\ t_bot t' = false.
Proof.
  induction l as [|x l IH] using rev_ind; intros t f pre post n junk c O1 TL F BT G Hn.
  - exists t. cbn [read_items map encode flat_map length rev]. cbn in O1. rewrite Nat.add_0_r in O1. auto.
  - apply Forall_app in G as [G1 G2]. inversion G2 as [|? ? G3 _]; subst. apply Forall_app in Hn as [N1 N2]. inversion N2 as [|? ? N3 _]; subst.
    assert (Ee : encode (t_fmt t) (l ++ [x]) = encode (t_fmt t) l ++ encode1 (t_fmt t) x).
    { unfold encode. rewrite flat_map_app. cbn [flat_map]. rewrite app_nil_r. reflexivity. }
    assert (Ec : c = (pre ++ encode (t_fmt t) l) ++ encode1 (t_fmt t) x ++ post) by (unfold c; rewrite Ee, <- !app_assoc; reflexivity).
    fold c in O1. rewrite Ee, app_length, Nat.add_assoc, <- app_length in O1. rewrite Ec in O1.
    destruct (read_item_tap_back t (t_fmt t) _ x post n junk O1 TL eq_refl BT G3 N3) as [t1 [E1 [O2 [AL B1]]]].
    assert (Ec2 : c = pre ++ encode (t_fmt t) l ++ (encode1 (t_fmt t) x ++ post)) by (rewrite Ec, <- !app_assoc; reflexivity).
    rewrite <- Ec, Ec2, app_length in O2. pose proof AL as [F1 _]. cbn in F1.
    destruct (IH t1 (t_fmt t) pre (encode1 (t_fmt t) x ++ post) n junk O2 TL F1 B1 G1 N1) as [t2 [E2 [O3 [F2 B2]]]].
    exists t2. rewrite app_length. cbn [length]. rewrite Nat.add_comm. cbn [plus read_items]. rewrite E1. cbn [bind]. rewrite E2. cbn [bind].
    rewrite map_app, rev_app_distr. cbn [map rev app]. split; [reflexivity|]. rewrite <- Ec2 in O3. auto.
Qed.

(** *** Writing *)
Lemma overwrite_again f p a b : (p <= length f)%nat -> (length b <= length a)%nat ->
  overwrite (overwrite f p a) p b = overwrite f p (b ++ skipn (length b) a).
Proof.
  intros H L. apply ext_eq. intros i.
  rewrite (overwrite_nth (overwrite f p a) p b i) by (rewrite overwrite_length by exact H; lia).
  rewrite (overwrite_nth f p a i) by exact H. rewrite (overwrite_nth f p (b ++ skipn (length b) a) i) by exact H.
  rewrite app_length, skipn_length, nth_app, nth_skipn.
  destruct (Nat.ltb_spec i p); [reflexivity|].
  destruct (Nat.ltb_spec i (p + length b)); destruct (Nat.ltb_spec i (p + (length b + (length a - length b))));
    destruct (Nat.ltb_spec (i - p) (length b)); destruct (Nat.ltb_spec i (p + length a)); try lia; try reflexivity.
  f_equal. lia.
Qed.

(** A drive ready to write at byte [k]. *)
Definition won (t : tape) (c : list Z) (k : nat) : Prop :=
  t_att t = true /\ win_ok (t_win t) /\ w_ro (t_win t) = false /\ write_ready (t_win t) /\ bytes_on t = c /\ at_byte t = k.
Lemma won_on t c k : won t c k -> on t c k.
Proof. intros [A [H [R [W [E K]]]]]. refine (conj A (conj H (conj _ (conj E K)))). intros X. congruence. Qed.

Lemma write_byte_on t c k b : won t c k ->
  exists w', tape_write_byte t b = Ok (set_win t w', SOk) /\ won (set_win t w') (overwrite c k [b]) (S k) /\ w_dirty w' = true.
Proof.
  intros [A [H [R [W [E K]]]]]. destruct (write_byte_ok t b A H R W) as [w' [E1 [O1 [R1 [D1 [C1 K1]]]]]].
  exists w'. split; [exact E1|]. split; [|exact D1].
  refine (conj A (conj O1 (conj R1 (conj (or_introl D1) (conj _ _))))); [|exact (eq_trans K1 (f_equal S K))].
  rewrite <- E, <- K. exact C1.
Qed.
Lemma write_bytes_on l : forall t c k, won t c k ->
  exists w', write_bytes t l = Ok (set_win t w', SOk) /\ won (set_win t w') (overwrite c k l) (k + length l) /\
    (w_dirty (t_win t) = true \/ l <> [] -> w_dirty w' = true).
Proof.
  induction l as [|b l IH]; intros t c k W.
  - exists (t_win t). cbn [write_bytes length]. rewrite Nat.add_0_r, overwrite_nil by (apply (on_le t), won_on; exact W).
    split; [destruct t; reflexivity|]. split; [destruct t; exact W|]. intros [D|D]; [exact D|congruence].
  - pose proof (on_le _ _ _ (won_on _ _ _ W)) as KL.
    destruct (write_byte_on t c k b W) as [w1 [E1 [W1 D1]]]. destruct (IH _ _ _ W1) as [w2 [E2 [W2 D2]]].
    exists w2. cbn [write_bytes]. rewrite E1. cbn [bind]. split; [exact E2|]. split; [|intros _; apply D2; left; exact D1].
    replace (S k) with (k + length [b])%nat in W2 by (cbn; lia). rewrite overwrite_app in W2 by exact KL. cbn [app length] in *.
    replace (k + S (length l))%nat with (k + 1 + length l)%nat by lia. exact W2.
Qed.
Lemma overwrite_cons f p a b : (p <= length f)%nat -> overwrite (overwrite f p [a]) (S p) b = overwrite f p (a :: b).
Proof. intros H. rewrite <- Nat.add_1_r. exact (overwrite_app f p [a] b H). Qed.
Lemma write_prevs_on l : forall t c k j, won t c k -> w_dirty (t_win t) = true -> t_srec t = Z.of_nat j -> (j + length l <= k)%nat ->
  exists w', write_prevs t l = Ok (set_srec (set_win t w') (Z.of_nat (j + length l)), SOk) /\
    won (set_srec (set_win t w') (Z.of_nat (j + length l))) (overwrite c j l) k /\ w_dirty w' = true.
Proof.
  induction l as [|b l IH]; intros t c k j W D SR HL; pose proof (on_le _ _ _ (won_on _ _ _ W)) as KL; cbn [length] in HL.
  - exists (t_win t). cbn [write_prevs length]. rewrite Nat.add_0_r, overwrite_nil by lia. rewrite <- SR.
    destruct t; auto.
  - destruct W as [A [H [R [WR [E K]]]]].
    destruct (write_prev_ok t b A H R ltac:(lia)) as [w1 [E1 [O1 [R1 [D1 [C1 K1]]]]]]. specialize (D1 D).
    rewrite SR in E1, C1. rewrite Nat2Z.id in C1. replace (Z.of_nat j + 1) with (Z.of_nat (S j)) in E1 by lia.
    assert (W1 : won (set_srec (set_win t w1) (Z.of_nat (S j))) (overwrite c j [b]) k).
    { refine (conj A (conj O1 (conj R1 (conj (or_introl D1) (conj _ (eq_trans K1 K)))))). rewrite <- E. exact C1. }
    destruct (IH _ _ _ (S j) W1 D1 eq_refl ltac:(lia)) as [w2 [E2 [W2 D2]]].
    exists w2. cbn [write_prevs]. rewrite E1. cbn [bind length]. replace (j + S (length l))%nat with (S j + length l)%nat by lia.
    split; [exact E2|]. split; [|exact D2].
    rewrite overwrite_cons in W2 by lia. exact W2.
Qed.

(** Same settings for writing. *)
Definition same_set (t t' : tape) : Prop :=
  t_fmt t' = t_fmt t /\ t_ring t' = t_ring t /\ t_eot t' = t_eot t /\ t_parity t' = false.

Lemma write_frames_tap d : forall t c k, won t c k -> tap_like (t_fmt t) -> 0 <= t_lrecl t -> t_lrecl t + Z.of_nat (length d) < 4294967296 ->
  exists w' fr, let t' := set_frame (set_lrecl (set_win t w') (t_lrecl t + Z.of_nat (length d))) fr in
    write_frames t d = Ok (t', SOk) /\ won t' (overwrite c k d) (k + length d) /\
    (w_dirty (t_win t) = true -> w_dirty w' = true).
Proof.
  induction d as [|b d IH]; intros t c k W TL L0 L1.
  - exists (t_win t), (t_frame t). cbn [write_frames length]. rewrite Nat.add_0_r, Z.add_0_r.
    rewrite overwrite_nil by (apply (on_le t), won_on; exact W). destruct t; auto.
  - pose proof (on_le _ _ _ (won_on _ _ _ W)) as KL. cbn [length] in L1.
    set (t0 := set_frame (set_lrecl t (t_lrecl t + 1)) (t_frame t + (if t_hi t then 1 else 2))).
    destruct (write_byte_on t0 c k b W) as [w1 [E1 [W1 D1]]].
    destruct (IH (set_win t0 w1) _ _ W1 TL ltac:(cbn; lia) ltac:(cbn; lia)) as [w2 [fr [E2 [W2 D2]]]]. cbn zeta in *.
    exists w2, fr. cbn [write_frames]. unfold tape_write_frame at 1. assert (A : t_att t = true) by apply W. rewrite A. cbn [negb].
    unfold u32. rewrite Z.mod_small by lia. fold t0.
    replace (match t_fmt t with P7B => if t_lrecl t =? 0 then Z.lor b 128 else b | _ => b end) with b
      by (destruct TL as [-> | ->]; reflexivity).
    rewrite E1. cbn [bind length].
    change (t_lrecl (set_win t0 w1)) with (t_lrecl t + 1) in *.
    replace (t_lrecl t + Z.of_nat (S (length d))) with (t_lrecl t + 1 + Z.of_nat (length d)) by lia.
    split; [exact E2|]. split; [|intros _; apply D2; exact D1].
    rewrite overwrite_cons in W2 by exact KL. replace (k + S (length d))%nat with (S k + length d)%nat by lia. exact W2.
Qed.

Lemma write_item_tap t f c k x : won t c k -> t_fmt t = f -> tap_like f -> t_ring t = true -> t_parity t = false -> good_item f x ->
  exists t', write_item t x = Ok (t', SOk) /\ won t' (overwrite c k (encode1 f x)) (k + length (encode1 f x)) /\
    same_set t t' /\ t_bot t' = false.
Proof.
  intros W F TL RG PA G. pose proof (on_le _ _ _ (won_on _ _ _ W)) as KL.
  assert (A : t_att t = true) by apply W.
  assert (CU : cursor (t_win t) = k) by apply W.
  unfold write_item. destruct x as [d|].
  - assert (GL : Z.of_nat (length d) < 4294967295).
    { destruct G as [_ G2]. destruct TL as [-> | ->]; apply G2. }
    set (t0 := set_srec (set_parity (set_mark (set_bot t false) false) false) (Z.of_nat k)).
    destruct (write_bytes_on [0; 0; 0; 0] t0 c k W) as [w1 [E1 [W1 D1]]]. specialize (D1 ltac:(right; discriminate)).
    cbn [length] in W1.
    set (t1 := set_func (set_orecl (set_lrecl (set_win t0 w1) 0) 0) FWrite).
    assert (ES : tape_write_start t = Ok (t1, SOk)).
    { unfold tape_write_start. rewrite A, RG. cbn [negb]. cbn zeta. rewrite CU. fold t0.
      change (t_fmt t0) with (t_fmt t). rewrite F. destruct TL as [-> | ->]; rewrite E1; reflexivity. }
    rewrite ES. cbn [bind].
    destruct (write_frames_tap d t1 _ _ W1) as [w2 [fr [E2 [W2 D2]]]]; [cbn; rewrite F; exact TL|cbn; lia|cbn; lia|].
    cbn zeta in *. rewrite E2. cbn [bind]. specialize (D2 D1).
    set (t2 := set_frame (set_lrecl (set_win t1 w2) (t_lrecl t1 + Z.of_nat (length d))) fr) in *.
    replace (k + 4)%nat with (k + length [0; 0; 0; 0]%Z)%nat in W2 at 1 by reflexivity. rewrite overwrite_app in W2 by exact KL.
    destruct (pad_encode f d TL) as [p [Ep [Lp Ep2]]].
    assert (S3 : exists w3, (match t_fmt t2 with
                   | TAP => if Z.odd (t_lrecl t2) then
                              let* y := tape_write_byte t2 0 in let '(t', _) := y in Ok t'
                            else Ok t2
                   | _ => Ok t2
                   end) = Ok (set_win t2 w3) /\
                   won (set_win t2 w3) (overwrite c k ([0; 0; 0; 0] ++ d ++ p)) (k + (4 + length d + length p)) /\ w_dirty w3 = true).
    { change (t_fmt t2) with (t_fmt t). change (t_lrecl t2) with (0 + Z.of_nat (length d)). rewrite Z.add_0_l, odd_of_nat, F.
      rewrite Ep2.
      assert (S0 : won t2 (overwrite c k ([0; 0; 0; 0] ++ d ++ [])) (k + (4 + length d + 0)) /\ w_dirty w2 = true).
      { rewrite app_nil_r. replace (k + (4 + length d + 0))%nat with (k + 4 + length d)%nat by lia. split; [exact W2|exact D2]. }
      destruct TL as [-> | ->]; cbn [pad] in *; [destruct (Nat.odd (length d))|]; cbn [repeat length] in *.
      - destruct (write_byte_on t2 _ _ 0 W2) as [w3 [E3 [W3 D3]]]. exists w3. rewrite E3. split; [reflexivity|]. split; [|exact D3].
        replace (k + 4 + length d)%nat with (k + length ([0; 0; 0; 0]%Z ++ d))%nat in W3 by (rewrite app_length; cbn; lia).
        rewrite overwrite_app, <- app_assoc in W3 by exact KL.
        replace (k + (4 + length d + 1))%nat with (S (k + length ([0; 0; 0; 0]%Z ++ d))) by (rewrite app_length; cbn; lia). exact W3.
      - exists w2. split; [reflexivity|exact S0].
      - exists w2. split; [reflexivity|exact S0]. }
    destruct S3 as [w3 [E3 [W3 D3]]]. set (t3 := set_win t2 w3) in *.
    set (lw := le32 (Z.of_nat (length d))) in *.
    destruct (write_prevs_on lw t3 _ _ k W3 D3 eq_refl ltac:(change (length lw) with 4%nat; lia)) as [w4 [E4 [W4 D4]]].
    set (t4 := set_srec (set_win t3 w4) (Z.of_nat (k + length lw))) in *.
    rewrite overwrite_again in W4 by (try exact KL; change (length lw) with 4%nat; cbn; lia).
    change (skipn (length lw) ([0; 0; 0; 0] ++ d ++ p)) with (d ++ p) in W4.
    destruct (write_bytes_on lw t4 _ _ W4) as [w5 [E5 [W5 D5]]].
    replace (k + (4 + length d + length p))%nat with (k + length (lw ++ d ++ p))%nat in W5
      by (rewrite !app_length; change (length lw) with 4%nat; lia).
    rewrite overwrite_app, <- !app_assoc, <- Ep in W5 by exact KL.
    exists (set_func (set_win t4 w5) FNone). split; [|split; [|split; [|reflexivity]]].
    + unfold tape_finish_rec. change (t_att t2) with (t_att t). rewrite A. cbn [negb].
      change (t_mark t2) with false. change (t_func t2) with FWrite.
      assert (X : (let* t1 := Ok t3 in
        let l := bytes_of (t_lrecl t1) in
        let* y := write_prevs t1 l in
        let '(t2, s2) := y in
        match s2 with
        | SOk =>
          let* z := write_bytes t2 l in
          let '(t3, s3) := z in
          match s3 with SOk => Ok (finish_end t3) | _ => Ok (t3, s3) end
        | _ => Ok (t2, s2)
        end) = Ok (set_func (set_win t4 w5) FNone, SOk)).
      { cbn [bind]. change (t_lrecl t3) with (0 + Z.of_nat (length d)). rewrite Z.add_0_l, bytes_of_le32 by lia. fold lw. cbn zeta.
        rewrite E4. cbn [bind]. fold t4. rewrite E5. reflexivity. }
      rewrite <- X. rewrite <- E3. change (t_fmt t2) with (t_fmt t). rewrite F. destruct TL as [-> | ->]; reflexivity.
    + replace (k + length (encode1 f (Rec d)))%nat with (k + length (lw ++ d ++ p) + length lw)%nat
        by (rewrite Ep, !app_length; lia). exact W5.
    + unfold same_set. cbn. auto.
  - set (t0 := set_srec (set_mark (set_bot t false) false) (Z.of_nat k)).
    destruct (write_bytes_on [0; 0; 0; 0] t0 c k W) as [w1 [E1 [W1 D1]]].
    assert (EM : encode1 f Mark = [0; 0; 0; 0]) by (destruct TL as [-> | ->]; reflexivity).
    set (t1 := set_func (set_frame (set_orecl (set_lrecl (set_win t0 w1) 0) 0) (t_frame (set_win t0 w1) + 1200)) FMark).
    assert (ES : tape_write_mark t = Ok (t1, SOk)).
    { unfold tape_write_mark. rewrite A, RG. cbn [negb]. cbn zeta. rewrite CU. fold t0.
      change (t_fmt t0) with (t_fmt t). rewrite F. destruct TL as [-> | ->]; rewrite E1; reflexivity. }
    rewrite ES. cbn [bind write_frames].
    eexists. split; [|split; [|split; [|]]].
    + unfold tape_finish_rec. change (t_att t1) with (t_att t). rewrite A. cbn [negb]. change (t_fmt t1) with (t_fmt t). rewrite F.
      change (t_mark t1) with false. change (t_func t1) with FMark. unfold finish_end. change (t_parity t1) with (t_parity t). rewrite PA. destruct TL as [-> | ->]; reflexivity.
    + rewrite EM. exact W1.
    + unfold same_set. cbn. auto.
    + reflexivity.
Qed.

Lemma write_items_tap l : forall t f c k, won t c k -> t_fmt t = f -> tap_like f -> t_ring t = true -> t_parity t = false ->
  Forall (good_item f) l ->
  exists t', write_items t l = Ok (t', SOk) /\ won t' (overwrite c k (encode f l)) (k + length (encode f l)) /\ same_set t t'.
Proof.
  induction l as [|x l IH]; intros t f c k W F TL RG PA G.
  - exists t. cbn [write_items encode flat_map length]. rewrite Nat.add_0_r, overwrite_nil by (apply (on_le t), won_on; exact W).
    split; [reflexivity|]. split; [exact W|]. unfold same_set. auto.
  - inversion G as [|? ? G1 G2]; subst. pose proof (on_le _ _ _ (won_on _ _ _ W)) as KL.
    destruct (write_item_tap t (t_fmt t) c k x W eq_refl TL RG PA G1) as [t1 [E1 [W1 [S1 B1]]]].
    pose proof S1 as [F1 [R1 [ET1 P1]]].
    destruct (IH t1 (t_fmt t) _ _ W1 F1 TL ltac:(congruence) P1 G2) as [t2 [E2 [W2 S2]]].
    exists t2. cbn [write_items]. rewrite E1. cbn [bind]. split; [exact E2|].
    rewrite overwrite_app in W2 by exact KL. unfold encode at 1 2. cbn [flat_map]. rewrite app_length, Nat.add_assoc. split; [exact W2|].
    unfold same_set in *. intuition congruence.
Qed.

(** *** Rewinding *)
Lemma start_rewind_on t c k : on t c k ->
  exists w', tape_start_rewind t = (set_win t w', SOk) /\ on (set_win t w') c 0 /\ w_file w' = c /\ w_dirty w' = false /\
    w_ro w' = w_ro (t_win t) /\ w_pb w' = O.
Proof.
  intros [A [H [C [E K]]]]. unfold tape_start_rewind.
  destruct (flush_some _ H C) as [w1 [Fl [O1 [D1 [F1 [C1 [P1 [B1 [L1 [R1 BB]]]]]]]]]]. rewrite Fl.
  eexists. split; [reflexivity|]. cbn [w_file w_dirty w_ro w_pb].
  split; [|split; [rewrite F1; exact E|split; [reflexivity|split; [exact R1|reflexivity]]]].
  refine (conj A (conj _ (conj _ (conj _ _)))).
  - pose proof O1 as [H1 _]. cbn [t_win set_win].
    okk; [exact H1|apply Nat.le_refl|apply Nat.le_0_l|apply Nat.le_0_l|intros _; reflexivity].
  - intros _. reflexivity.
  - unfold bytes_on, content. cbn [t_win set_win w_dirty w_file]. rewrite F1. exact E.
  - reflexivity.
Qed.
Lemma rewind_steps_ok k : forall n t, 0 < n -> t_att t = true -> t_frame t < Z.of_nat (S k) * n ->
  rewind_steps (S k) n t = (set_bot (set_frame t 0) true, SBot).
Proof.
  induction k as [|k IH]; intros n t Hn A HF; change (rewind_steps (S ?k) n t) with
    (let '(t1, s) := tape_rewind_frames t n in match s with SOk => rewind_steps k n t1 | _ => (t1, s) end);
    unfold tape_rewind_frames; rewrite A; cbn [negb].
  - replace (t_frame t <? n) with true by lia. reflexivity.
  - destruct (Z.ltb_spec (t_frame t) n); [reflexivity|]. rewrite IH; [reflexivity|exact Hn|exact A|cbn [t_frame set_frame]; lia].
Qed.

Lemma attach_won d0 c ty hi : length (w_buf (t_win d0)) = BS ->
  won (tape_attach d0 c ty true hi) c 0.
Proof.
  intros H. refine (conj eq_refl (conj _ (conj eq_refl (conj _ (conj eq_refl eq_refl))))).
  - cbn. okk; [exact H|apply Nat.le_refl|apply Nat.le_0_l|apply Nat.le_0_l|intros _; reflexivity].
  - right. cbn. apply BS_pos.
Qed.
Lemma attach_on d0 c ty ring hi : length (w_buf (t_win d0)) = BS ->
  on (tape_attach d0 c ty ring hi) c 0.
Proof.
  intros H. refine (conj eq_refl (conj _ (conj _ (conj eq_refl eq_refl)))).
  - cbn. okk; [exact H|apply Nat.le_refl|apply Nat.le_0_l|apply Nat.le_0_l|intros _; reflexivity].
  - intros _. reflexivity.
Qed.

(** Written from load point over any old content, rewound, read back. *)
Lemma round_trip d0 c f hi l n junk steps sz : length (w_buf (t_win d0)) = BS -> t_parity d0 = false -> tap_like f ->
  Forall (good_item f) l -> fits n l -> 0 < sz ->
  exists t1 t2, write_items (tape_attach d0 c f true hi) l = Ok (t1, SOk) /\ tape_start_rewind t1 = (t2, SOk) /\
    w_file (t_win t2) = overwrite c 0 (encode f l) /\
    (t_frame t2 < Z.of_nat (S steps) * sz ->
     exists t3 t4, rewind_steps (S steps) sz t2 = (t3, SBot) /\
       read_items (length l) n junk false t3 = Ok (t4, map GItem l) /\ t_bot t3 = true /\
       ((length c <= length (encode f l))%nat -> exists t5, read_item n junk false t4 = Ok (t5, GEnd))).
Proof.
  intros HB PA TL G FT Hs.
  destruct (write_items_tap l _ f c 0 (attach_won d0 c f hi HB) eq_refl TL eq_refl PA G) as [t1 [E1 [W1 [F1 [R1 [ET1 P1]]]]]].
  cbn in F1, R1, ET1.
  destruct (start_rewind_on _ _ _ (won_on _ _ _ W1)) as [w2 [E2 [O2 [FI [D2 _]]]]].
  exists t1, (set_win t1 w2). split; [exact E1|]. split; [exact E2|]. split; [exact FI|]. intros HF.
  assert (A2 : t_att (set_win t1 w2) = true) by apply O2.
  pose proof (rewind_steps_ok steps sz _ Hs A2 HF) as E3. set (t3 := set_bot (set_frame (set_win t1 w2) 0) true) in *.
  assert (OE : overwrite c 0 (encode f l) = [] ++ encode f l ++ skipn (length (encode f l)) c) by reflexivity.
  assert (O3 : on t3 ([] ++ encode f l ++ skipn (length (encode f l)) c) (length (@nil Z))) by (rewrite <- OE; exact O2).
  destruct (read_items_tap l t3 f [] (skipn (length (encode f l)) c) n junk O3 TL F1 ET1 G FT) as [t4 [E4 [O4 [AL _]]]].
  exists t3, t4. split; [exact E3|]. split; [exact E4|]. split; [reflexivity|]. intros HL.
  rewrite (skipn_all2 c) in O4 by exact HL. rewrite app_nil_r in O4. cbn [length plus app] in O4.
  pose proof AL as [F4 [_ [ET4 _]]].
  apply (read_items_end t4 f n junk _ O4 TL); [rewrite F4; exact F1|rewrite ET4; exact ET1].
Qed.
