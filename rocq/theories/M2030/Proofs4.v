(** The 2030: the storage cycles of the selector channels. *)
From Verif Require Import Tape.Records M2030.Model M2030.Spec M2030.Proofs M2030.Proofs2.

Lemma wpar_ok x : 0 <= x < 256 -> exists y, wpar x = Ok y /\ odd9 y /\ y mod 256 = x.
Proof. intros H. destruct (par_out x H) as (p & E & O & M & _). exists (Z.lor x p). unfold wpar. rewrite E. auto. Qed.
Lemma count_down_spec h l : 1 <= pair16 h l -> exists y z, count_down h l = (y, z) /\ 0 <= y < 256 /\ 0 <= z < 256 /\ 256 * y + z = pair16 h l - 1.
Proof.
  unfold pair16, count_down. intros H. rewrite !land_ones8. cbv zeta. eexists _, _. split; [reflexivity|].
  pose proof (Z.mod_pos_bound h 256 ltac:(lia)). pose proof (Z.mod_pos_bound l 256 ltac:(lia)).
  assert (E : (l - 1) mod 256 = if l mod 256 =? 0 then 255 else l mod 256 - 1).
  { destruct (Z.eqb_spec (l mod 256) 0); Z.to_euclidean_division_equations; lia. }
  rewrite E. unfold u16. destruct (Z.eqb_spec (l mod 256) 0) as [Q|Q].
  - cbn [Z.eqb Pos.eqb]. rewrite (Z.mod_small (h mod 256 - 1)) by lia. lia.
  - replace (l mod 256 - 1 =? 255) with false by lia. lia.
Qed.
Lemma count_up_spec h l : pair16 h l < 65535 -> exists y z, count_up h l = (y, z) /\ 0 <= y < 256 /\ 0 <= z < 256 /\ 256 * y + z = pair16 h l + 1.
Proof.
  unfold pair16, count_up. intros H. rewrite !land_ones8. cbv zeta. eexists _, _. split; [reflexivity|].
  pose proof (Z.mod_pos_bound h 256 ltac:(lia)). pose proof (Z.mod_pos_bound l 256 ltac:(lia)).
  assert (E : (l + 1) mod 256 = if l mod 256 =? 255 then 0 else l mod 256 + 1).
  { destruct (Z.eqb_spec (l mod 256) 255); Z.to_euclidean_division_equations; lia. }
  rewrite E. destruct (Z.eqb_spec (l mod 256) 255) as [Q|Q].
  - cbn [Z.eqb]. lia.
  - replace (l mod 256 + 1 =? 0) with false by lia. lia.
Qed.
Lemma low_shift a b n : 0 <= n -> 0 <= b < 2 ^ n -> Z.lor (Z.shiftl a n) b = a * 2 ^ n + b.
Proof. intros N B. rewrite Z.lor_comm, lor_shift by lia. lia. Qed.
Lemma both_range h l : 0 <= both h l < 65536 /\ both h l = pair16 h l.
Proof.
  pose proof (Z.mod_pos_bound h 256 ltac:(lia)). pose proof (Z.mod_pos_bound l 256 ltac:(lia)).
  assert (E : both h l = pair16 h l).
  { unfold both, pair16. rewrite !land_ones8, low_shift by (cbn; lia). change (2 ^ 8) with 256. lia. }
  split; [|exact E]. rewrite E. unfold pair16. lia.
Qed.

Ltac insb := repeat match goal with b : bool |- inside _ _ => destruct b end; reflexivity.
Lemma sel_flags_frame c s : frame [sel_cnt_rdy_not_zero c; GE c; MC_REG] s (sel_flags c s).
Proof. destruct c; unfold sel_flags; frs. Qed.
Lemma sel_flags_sm c s : sm s (sel_flags c s). Proof. unfold sel_flags. sms. Qed.
Lemma sel_fetch_fr c s : fr [GR c; Q_REG] s (sel_fetch c s).
Proof. destruct c; unfold sel_fetch; frs. Qed.
Lemma sel_store_fr c s : fr [GR c; GE c; sel_gr_full c; SEL_TAGS c] s (sel_store c s).
Proof. destruct c; unfold sel_store; frs. Qed.
Lemma sel_end_frame c s : frame [sel_gr_full c; sel_cnt_rdy_zero c; GE c; sel_share_req] s (sel_end c s).
Proof. destruct c; unfold sel_end; frs. Qed.
Lemma sel_fetch_ok c s : 0 <= s!MN_REG < Z.of_nat (length (mm s)) -> length (mp s) = 256%nat -> 0 <= s!M_REG < 512 -> exists s', sel_fetch c s = Ok s'.
Proof.
  intros M P R. unfold sel_fetch.
  assert (X : forall s1, mp s1 = mp s -> s1!M_REG = s!M_REG -> exists s', (let* k := tab (mp s1) (Z.lor 224 (Z.shiftr s1!M_REG 3)) in
     Ok (s1 <[Q_REG := Z.lor (Z.land s1!Q_REG 240) (Z.land k 15)]>)) = Ok s').
  { intros s1 E1 E2. rewrite E1, E2. destruct (tab_ok (mp s) (Z.lor 224 (Z.shiftr s!M_REG 3))) as [v E].
    - rewrite P. pose proof (sweep 512 (fun m => (0 <=? Z.lor 224 (Z.shiftr m 3)) && (Z.lor 224 (Z.shiftr m 3) <? 256)) ltac:(vm_compute; reflexivity) _ R) as S. cbn beta in S. lia.
    - rewrite E. eexists. reflexivity. }
  destruct (_ && _ && _).
  - destruct (tab_ok _ _ M) as [v E]. rewrite E. cbn [bind]. destruct c; apply X; reflexivity.
  - cbn [bind]. apply X; reflexivity.
Qed.
Lemma put_ok l i v : 0 <= i < Z.of_nat (length l) -> put l i v = Ok (upd l (Z.to_nat i) v).
Proof. intros H. unfold put. replace ((i <? 0) || (Z.of_nat (length l) <=? i)) with false by lia. reflexivity. Qed.
Lemma sel_store_ok c s : 0 <= s!MN_REG < Z.of_nat (length (mm s)) -> exists s', sel_store c s = Ok s'.
Proof.
  intros M. unfold sel_store. destruct (_ && _); [|eexists; reflexivity].
  destruct (bit s!(GK c) 240 && _).
  - destruct (tab_ok _ _ M) as [v E]. rewrite E. cbn [bind]. destruct (bit _ 16); cbn [bind]; [eexists; reflexivity|].
    rewrite put_ok by exact M. eexists. reflexivity.
  - cbn [bind]. destruct (bit _ 16); cbn [bind]; [eexists; reflexivity|]. rewrite put_ok by exact M. eexists. reflexivity.
Qed.
(** What [sel_swap] leaves. *)
Lemma sel_swap_ok c s : 0 <= s!GHY < 256 -> 0 <= s!GHZ < 256 ->
  exists s', sel_swap c s = Ok s' /\ frame [GC c; GD c; GU c; GV c] s s' /\ sm s s' /\
    s'!(GC c) = s!(GU c) /\ s'!(GD c) = s!(GV c) /\ odd9 s'!(GU c) /\ odd9 s'!(GV c) /\ pair16 s'!(GU c) s'!(GV c) = 256 * s!GHY + s!GHZ.
Proof.
  intros Y Z. destruct (wpar_ok _ Y) as (u & Eu & Ou & Mu). destruct (wpar_ok _ Z) as (v & Ev & Ov & Mv).
  exists (s <[GC c := s!(GU c)]> <[GD c := s!(GV c)]> <[GV c := v]> <[GU c := u]>).
  unfold sel_swap. cbv zeta. split.
  { rewrite !get_set. cbn [reg_beq]. rewrite Ev, Eu. destruct c; reflexivity. }
  unfold pair16. split; [destruct c; frs|]. split; [sms|]. rewrite !get_set. destruct c; cbn -[Z.modulo Z.mul Z.add]; rewrite ?Mu, ?Mv; repeat split; try assumption; try apply Ou; try apply Ov.
Qed.

(** The read half: the count goes down by one, the address moves to GCD. *)
Lemma sel_read_ok c s : Z.of_nat (length (mm s)) = 65536 -> length (mp s) = 256%nat -> 0 <= s!(GU c) < 512 -> 1 <= pair16 s!(GC c) s!(GD c) ->
  exists s', sel_read c s = Ok s' /\ s'!(GC c) = s!(GU c) /\ s'!(GD c) = s!(GV c) /\ odd9 s'!(GU c) /\ odd9 s'!(GV c) /\
    pair16 s'!(GU c) s'!(GV c) = pair16 s!(GC c) s!(GD c) - 1 /\ s'!MN_REG = pair16 s!(GU c) s!(GV c) /\
    s'!(sel_write_cycle c) = 1 /\ s'!(sel_read_cycle c) = 0 /\ s'!sel_share_req = s!sel_share_req /\ s'!ch_sel = s!ch_sel /\
    (forall i, s'!(GG i) = s!(GG i)) /\ sm s s'.
Proof.
  intros LM LP RU RC. destruct (count_down_spec _ _ RC) as (y & z & E & Y & Z & YZ).
  set (s1 := sel_addr c s). assert (E1 : s1 = s <[M_REG := s!(GU c)]> <[N_REG := s!(GV c)]> <[MN_REG := both s!(GU c) s!(GV c)]> <[GHZ := z]> <[GHY := y]>).
  { unfold s1, sel_addr. rewrite E. reflexivity. }
  set (s2 := sel_flags c s1). pose proof (sel_flags_frame c s1 : frame _ s1 s2) as F2. pose proof (sel_flags_sm c s1 : sm s1 s2) as M2.
  assert (G2 : forall r, outside [sel_cnt_rdy_not_zero c; GE c; MC_REG] r -> s2!r = (s <[M_REG := s!(GU c)]> <[N_REG := s!(GV c)]> <[MN_REG := both s!(GU c) s!(GV c)]> <[GHZ := z]> <[GHY := y]>)!r).
  { intros r O. rewrite <- E1. exact (F2 r O). }
  destruct (sel_swap_ok c s2) as (s3 & E3 & F3 & M3 & A1 & A2 & A3 & A4 & A5).
  { rewrite G2 by (destruct c; reflexivity). rewrite !get_set. cbn [reg_beq]. exact Y. }
  { rewrite G2 by (destruct c; reflexivity). rewrite !get_set. cbn [reg_beq]. exact Z. }
  assert (S3 : sm s s3). { eapply sm_trans; [|exact M3]. eapply sm_trans; [|exact M2]. rewrite E1. sms. }
  assert (G3 : forall r, outside [sel_cnt_rdy_not_zero c; GE c; MC_REG; GC c; GD c; GU c; GV c; M_REG; N_REG; MN_REG; GHZ; GHY] r -> s3!r = s!r).
  { intros r O. split_out O. rewrite F3 by (unfold outside; cbn [existsb]; rewrite ?orb_false_iff; repeat split; assumption).
    rewrite G2 by (unfold outside; cbn [existsb]; rewrite ?orb_false_iff; repeat split; assumption).
    rewrite !get_set. known. reflexivity. }
  assert (MN3 : s3!MN_REG = pair16 s!(GU c) s!(GV c)).
  { rewrite F3 by (destruct c; reflexivity). rewrite G2 by (destruct c; reflexivity). rewrite !get_set. cbn [reg_beq]. apply both_range. }
  assert (MR3 : s3!M_REG = s!(GU c)).
  { rewrite F3 by (destruct c; reflexivity). rewrite G2 by (destruct c; reflexivity). rewrite !get_set. cbn [reg_beq]. reflexivity. }
  destruct S3 as (S31 & S32 & S33 & S34).
  destruct (sel_fetch_ok c s3) as (s4 & E4).
  { rewrite S31, LM, MN3, <- (proj2 (both_range _ _)). apply both_range. } { rewrite S33. exact LP. } { rewrite MR3. exact RU. }
  pose proof (fr_inv _ _ _ _ (sel_fetch_fr c s3) E4) as F4.
  assert (M4 : sm s3 s4).
  { eapply smr_inv; [|exact E4]. unfold sel_fetch. sms. }
  exists (s4 <[sel_write_cycle c := 1]> <[sel_read_cycle c := 0]>). split.
  { unfold sel_read. fold s1. fold s2. rewrite E3. cbn [bind]. rewrite E4. reflexivity. }
  assert (G4 : forall r, outside [GR c; Q_REG; sel_write_cycle c; sel_read_cycle c] r -> (s4 <[sel_write_cycle c := 1]> <[sel_read_cycle c := 0]>)!r = s3!r).
  { intros r O. split_out O. rewrite !get_set. known. apply F4. unfold outside. cbn [existsb]. rewrite ?orb_false_iff. repeat split; assumption. }
  rewrite !(G4 (GC c)), !(G4 (GD c)), !(G4 (GU c)), !(G4 (GV c)), !(G4 MN_REG), !(G4 sel_share_req), !(G4 ch_sel) by (destruct c; reflexivity).
  rewrite A1, A2, A5.
  rewrite !(G3 sel_share_req), !(G3 ch_sel) by (destruct c; reflexivity).
  assert (GU2 : s2!(GU c) = s!(GU c)) by (rewrite G2 by (destruct c; reflexivity); rewrite !get_set; destruct c; reflexivity).
  assert (GV2 : s2!(GV c) = s!(GV c)) by (rewrite G2 by (destruct c; reflexivity); rewrite !get_set; destruct c; reflexivity).
  assert (GY2 : s2!GHY = y) by (rewrite G2 by (destruct c; reflexivity); rewrite !get_set; destruct c; reflexivity).
  assert (GZ2 : s2!GHZ = z) by (rewrite G2 by (destruct c; reflexivity); rewrite !get_set; destruct c; reflexivity).
  rewrite GU2, GV2, GY2, GZ2, YZ, MN3.
  do 2 (split; [reflexivity|]). split; [exact A3|]. split; [exact A4|]. do 2 (split; [reflexivity|]).
  split; [rewrite !get_set; destruct c; reflexivity|]. split; [rewrite !get_set; destruct c; reflexivity|].
  do 2 (split; [reflexivity|]). split.
  - intros i. rewrite G4 by (destruct c, i; reflexivity). apply G3. destruct c, i; reflexivity.
  - apply sm_set, sm_set. eapply sm_trans; [|exact M4]. repeat split; assumption.
Qed.

(** The write half: the address moves by one. *)
Lemma sel_write_ok c s : Z.of_nat (length (mm s)) = 65536 -> 0 <= s!MN_REG < 65536 ->
  (if s!(GG (ch s)) =? 268 then 1 <= pair16 s!(GC c) s!(GD c) else pair16 s!(GC c) s!(GD c) < 65535) ->
  exists s', sel_write c s = Ok s' /\ s'!(GC c) = s!(GU c) /\ s'!(GD c) = s!(GV c) /\ odd9 s'!(GU c) /\ odd9 s'!(GV c) /\
    pair16 s'!(GU c) s'!(GV c) = pair16 s!(GC c) s!(GD c) + (if s!(GG (ch s)) =? 268 then - 1 else 1).
Proof.
  intros LM RM RC. set (back := s!(GG (ch s)) =? 268) in *.
  assert (X : exists y z, (if back then count_down s!(GC c) s!(GD c) else count_up s!(GC c) s!(GD c)) = (y, z) /\ 0 <= y < 256 /\ 0 <= z < 256 /\
     256 * y + z = pair16 s!(GC c) s!(GD c) + (if back then -1 else 1)).
  { destruct back; [destruct (count_down_spec _ _ RC) as (y & z & ?)|destruct (count_up_spec _ _ RC) as (y & z & ?)]; exists y, z; intuition. }
  destruct X as (y & z & E & Y & Z & YZ).
  set (s1 := sel_incr c s).
  assert (Q : bit y 256 = false).
  { pose proof (sweep 256 (fun y => negb (bit y 256)) ltac:(vm_compute; reflexivity) y Y) as S. cbn beta in S. destruct (bit y 256); [discriminate|reflexivity]. }
  assert (E1 : s1 = s <[GHZ := z]> <[GHY := y]>).
  { unfold s1, sel_incr. fold back. cbv zeta. rewrite E, Q, andb_false_r. reflexivity. }
  destruct (sel_swap_ok c s1) as (s3 & E3 & F3 & M3 & A1 & A2 & A3 & A4 & A5); try (rewrite E1, !get_set; cbn [reg_beq]; assumption).
  set (s4 := s3 <[sel_write_cycle c := 0]>).
  destruct (sel_store_ok c s4) as (s5 & E5).
  { unfold s4. rewrite mm_set, get_set. destruct M3 as (-> & _). assert (L1 : mm s1 = mm s) by (rewrite E1; reflexivity). rewrite L1, LM.
    replace (reg_beq MN_REG (sel_write_cycle c)) with false by (destruct c; reflexivity). rewrite F3 by (destruct c; reflexivity). rewrite E1, !get_set. cbn [reg_beq]. exact RM. }
  pose proof (fr_inv _ _ _ _ (sel_store_fr c s4) E5) as F5. pose proof (sel_end_frame c s5) as F6.
  exists (sel_end c s5). split. { unfold sel_write. fold s1. rewrite E3. cbn [bind]. fold s4. rewrite E5. reflexivity. }
  assert (G : forall r, In r [GC c; GD c; GU c; GV c] -> (sel_end c s5)!r = s3!r).
  { intros r I. cbn [In] in I. destruct I as [<-|[<-|[<-|[<-|[]]]]]; (rewrite F6 by (destruct c; reflexivity)); (rewrite F5 by (destruct c; reflexivity)); unfold s4; rewrite get_set; destruct c; reflexivity. }
  rewrite !(G (GC c)), !(G (GD c)), !(G (GU c)), !(G (GV c)) by (cbn; tauto).
  rewrite A1, A2, A5, E1, !get_set. cbn [reg_beq]. rewrite <- YZ. destruct c; repeat split; try reflexivity; try apply A3; try apply A4.
Qed.
