From Verif Require Export D2841.Proofs2.
Open Scope Z_scope.

(** *** Status bits *)
Lemma mask_bit k j : 0 <= k < 8 -> 0 <= j < 8 -> bit_of (Z.shiftl 1 (7 - k)) j = (j =? k).
Proof. intros K J. unfold bit_of. rewrite Z.shiftl_1_l, Z.pow2_bits_eqb by lia. destruct (Z.eqb_spec (7 - k) (7 - j)), (Z.eqb_spec j k); lia || reflexivity. Qed.
Lemma mask_byte k : 0 <= k < 8 -> is_byte (Z.shiftl 1 (7 - k)).
Proof. intros K. assert (C : In k [0;1;2;3;4;5;6;7]) by (cbn; lia). cbn in C. repeat destruct C as [C|C]; try contradiction; subst k; apply byte_c; reflexivity. Qed.
Lemma sets_bit r k s j : 0 <= k < 8 -> 0 <= j < 8 -> bit_of (c_r (sets r (Z.shiftl 1 (7 - k)) s) r) j = (j =? k) || bit_of (c_r s r) j.
Proof. intros K J. unfold sets, setr. cbn [c_r set_r]. rewrite put_same, or_bit, mask_bit by assumption. apply orb_comm. Qed.
Lemma clrs_bit r k s j : 0 <= k < 8 -> 0 <= j < 8 -> bit_of (c_r (clrs r (Z.shiftl 1 (7 - k)) s) r) j = negb (j =? k) && bit_of (c_r s r) j.
Proof. intros K J. unfold clrs, setr. cbn [c_r set_r]. rewrite put_same, clr_bit, mask_bit by assumption. apply andb_comm. Qed.
Lemma sets_ok r k s : 0 <= k < 8 -> regs_ok s -> regs_ok (sets r (Z.shiftl 1 (7 - k)) s).
Proof. intros K R x. apply put_byte; [apply byte_lor; [apply R|apply mask_byte; exact K]|exact R]. Qed.
Lemma clrs_ok r k s : 0 <= k < 8 -> regs_ok s -> regs_ok (clrs r (Z.shiftl 1 (7 - k)) s).
Proof. intros K R x. apply put_byte; [apply byte_land; [specialize (R r); unfold is_byte in R; lia|apply in_byte; apply mask_byte; exact K]|exact R]. Qed.
Definition st_new (m : mi) (old new : Z) (carry nz : bool) : Prop := forall k, 0 <= k < 8 ->
  bit_of new k = match cs_effect (CS m) nz k with
                 | Some b => b
                 | None => if (k =? 3) && ((CC m =? 4) || (CC m =? 5) || (CC m =? 6)) then carry else bit_of old k
                 end.
(** Only ST and the index latch differ. *)
Definition st_only (s s1 : ctx) : Prop := (exists f, s1 = set_r f (set_index (c_index s1) s)) /\ forall r, r <> ST -> c_r s1 r = c_r s r.
Lemma st_only_refl s : st_only s s.
Proof. split; [exists (c_r s); destruct s; reflexivity|auto]. Qed.
Lemma st_only_trans s s1 s2 : st_only s s1 -> st_only s1 s2 -> st_only s s2.
Proof. intros [[f F] H] [[g G] H']. split; [exists g; rewrite G at 1; rewrite F; destruct s; reflexivity|]. intros r R. rewrite H', H by exact R. reflexivity. Qed.
Lemma st_only_sets k s : st_only s (sets ST k s).
Proof. split; [eexists; unfold sets, setr; destruct s; reflexivity|]. intros r R. apply put_other. exact R. Qed.
Lemma st_only_clrs k s : st_only s (clrs ST k s).
Proof. split; [eexists; unfold clrs, setr; destruct s; reflexivity|]. intros r R. apply put_other. exact R. Qed.
Lemma st_only_index b s : st_only s (set_index b s).
Proof. split; [exists (c_r s); destruct s; reflexivity|auto]. Qed.
Lemma st_carry_ok s m : regs_ok s -> let s1 := st_carry s m in st_only s s1 /\ regs_ok s1 /\ c_index s1 = c_index s /\
  forall k, 0 <= k < 8 -> bit_of (c_r s1 ST) k = if (k =? 3) && ((CC m =? 4) || (CC m =? 5) || (CC m =? 6)) then c_carry s else bit_of (c_r s ST) k.
Proof.
  intros R. unfold st_carry. destruct ((CC m =? 4) || (CC m =? 5) || (CC m =? 6)); cbv zeta.
  - change B3 with (Z.shiftl 1 (7 - 3)). destruct (c_carry s).
    + split; [apply st_only_sets|]. split; [apply sets_ok; [lia|exact R]|]. split; [reflexivity|]. intros k K. rewrite sets_bit by lia. rewrite andb_true_r. destruct (k =? 3); reflexivity.
    + split; [apply st_only_clrs|]. split; [apply clrs_ok; [lia|exact R]|]. split; [reflexivity|]. intros k K. rewrite clrs_bit by lia. rewrite andb_true_r. destruct (k =? 3); reflexivity.
  - split; [apply st_only_refl|]. split; [exact R|]. split; [reflexivity|]. intros k K. rewrite andb_false_r. reflexivity.
Qed.
Lemma status_ok s m : regs_ok s -> good_mi m -> let s1 := status s m in st_only s s1 /\ regs_ok s1 /\ c_index s1 = (if CS m =? 3 then false else c_index s) /\
  forall k, 0 <= k < 8 -> bit_of (c_r s1 ST) k = match cs_effect (CS m) (c_nz s) k with Some b => b | None => bit_of (c_r s ST) k end.
Proof.
  intros R (_ & _ & _ & _ & _ & _ & _ & _ & _ & _ & HCS & _). cbv zeta.
  assert (DS : forall j, 0 <= j < 8 -> CS m <> 3 -> (forall k, 0 <= k < 8 -> cs_effect (CS m) (c_nz s) k = if k =? j then Some true else None) ->
    st_only s (sets ST (Z.shiftl 1 (7 - j)) s) /\ regs_ok (sets ST (Z.shiftl 1 (7 - j)) s) /\ c_index (sets ST (Z.shiftl 1 (7 - j)) s) = (if CS m =? 3 then false else c_index s) /\
    forall k, 0 <= k < 8 -> bit_of (c_r (sets ST (Z.shiftl 1 (7 - j)) s) ST) k = match cs_effect (CS m) (c_nz s) k with Some b => b | None => bit_of (c_r s ST) k end).
  { intros j J N E. split; [apply st_only_sets|]. split; [apply sets_ok; assumption|]. split; [destruct (Z.eqb_spec (CS m) 3); [contradiction|reflexivity]|]. intros k K. rewrite sets_bit, E by assumption. destruct (k =? j); reflexivity. }
  assert (DC : forall j, 0 <= j < 8 -> CS m <> 3 -> (forall k, 0 <= k < 8 -> cs_effect (CS m) (c_nz s) k = if k =? j then Some false else None) ->
    st_only s (clrs ST (Z.shiftl 1 (7 - j)) s) /\ regs_ok (clrs ST (Z.shiftl 1 (7 - j)) s) /\ c_index (clrs ST (Z.shiftl 1 (7 - j)) s) = (if CS m =? 3 then false else c_index s) /\
    forall k, 0 <= k < 8 -> bit_of (c_r (clrs ST (Z.shiftl 1 (7 - j)) s) ST) k = match cs_effect (CS m) (c_nz s) k with Some b => b | None => bit_of (c_r s ST) k end).
  { intros j J N E. split; [apply st_only_clrs|]. split; [apply clrs_ok; assumption|]. split; [destruct (Z.eqb_spec (CS m) 3); [contradiction|reflexivity]|]. intros k K. rewrite clrs_bit, E by assumption. destruct (k =? j); reflexivity. }
  assert (DN : CS m <> 3 -> (forall k, 0 <= k < 8 -> cs_effect (CS m) (c_nz s) k = None) -> st_only s s /\ regs_ok s /\ c_index s = (if CS m =? 3 then false else c_index s) /\
    forall k, 0 <= k < 8 -> bit_of (c_r s ST) k = match cs_effect (CS m) (c_nz s) k with Some b => b | None => bit_of (c_r s ST) k end).
  { intros N E. split; [apply st_only_refl|]. split; [exact R|]. split; [destruct (Z.eqb_spec (CS m) 3); [contradiction|reflexivity]|]. intros k K. rewrite E by exact K. reflexivity. }
  assert (C : In (CS m) [0;1;2;3;4;5;6;7;8;9;10;11;12;13;14;15]) by (cbn; lia). unfold status. cbn in C.
  destruct C as [C|[C|[C|[C|[C|[C|[C|[C|[C|[C|[C|[C|[C|[C|[C|[C|[]]]]]]]]]]]]]]]]]; rewrite <- C in *; cbn [Z.eqb Pos.eqb].
  - apply DN; [lia|]. intros k K. reflexivity.
  - apply (DC 0); try lia. intros k K. unfold cs_effect. cbn [Z.eqb Pos.eqb andb]. destruct (k =? 0); reflexivity.
  - apply (DS 0); try lia. intros k K. unfold cs_effect. cbn [Z.eqb Pos.eqb andb]. destruct (k =? 0); reflexivity.
  - change B1 with (Z.shiftl 1 (7 - 1)). split; [eapply st_only_trans; [apply st_only_clrs|apply st_only_index]|]. split; [exact (clrs_ok ST 1 s ltac:(lia) R)|]. split; [reflexivity|]. intros k K. cbn [c_r set_index]. rewrite clrs_bit by lia. unfold cs_effect. cbn [Z.eqb Pos.eqb andb]. destruct (k =? 1); reflexivity.
  - apply (DS 1); try lia. intros k K. unfold cs_effect. cbn [Z.eqb Pos.eqb andb]. destruct (k =? 1); reflexivity.
  - apply (DC 2); try lia. intros k K. unfold cs_effect. cbn [Z.eqb Pos.eqb andb]. destruct (k =? 2); reflexivity.
  - destruct (c_nz s); [apply (DS 2)|apply DN]; try lia; intros k K; unfold cs_effect; cbn [Z.eqb Pos.eqb andb]; destruct (k =? 2); reflexivity.
  - apply (DC 3); try lia. intros k K. unfold cs_effect. cbn [Z.eqb Pos.eqb andb]. destruct (k =? 3); reflexivity.
  - apply (DS 3); try lia. intros k K. unfold cs_effect. cbn [Z.eqb Pos.eqb andb]. destruct (k =? 3); reflexivity.
  - apply (DC 4); try lia. intros k K. unfold cs_effect. cbn [Z.eqb Pos.eqb andb]. destruct (k =? 4); reflexivity.
  - apply (DC 5); try lia. intros k K. unfold cs_effect. cbn [Z.eqb Pos.eqb andb]. destruct (k =? 5); reflexivity.
  - apply (DS 5); try lia. intros k K. unfold cs_effect. cbn [Z.eqb Pos.eqb andb]. destruct (k =? 5); reflexivity.
  - apply (DC 6); try lia. intros k K. unfold cs_effect. cbn [Z.eqb Pos.eqb andb]. destruct (k =? 6); reflexivity.
  - apply (DS 6); try lia. intros k K. unfold cs_effect. cbn [Z.eqb Pos.eqb andb]. destruct (k =? 6); reflexivity.
  - apply (DC 7); try lia. intros k K. unfold cs_effect. cbn [Z.eqb Pos.eqb andb]. destruct (k =? 7); reflexivity.
  - apply (DS 7); try lia. intros k K. unfold cs_effect. cbn [Z.eqb Pos.eqb andb]. destruct (k =? 7); reflexivity.
Qed.

(** *** The next address *)
Lemma page w n : 0 <= w < 4096 -> is_byte n -> Z.lor (Z.land w 3840) n = 256 * (w / 256) + n.
Proof.
  intros W N. assert (E : Z.land w 3840 = Z.shiftl (w / 256) 8).
  { change 3840 with (Z.shiftl 15 8). apply Z.bits_inj'. intros k K. rewrite Z.land_spec. destruct (Z.ltb_spec k 8).
    - rewrite !Z.shiftl_spec_low by lia. apply andb_false_r.
    - rewrite !Z.shiftl_spec by lia. change 256 with (2 ^ 8). rewrite Z.div_pow2_bits by lia. replace (k - 8 + 8) with k by lia. destruct (Z.ltb_spec k 12); [change 15 with (Z.ones 4); rewrite Z.ones_spec_low by lia; apply andb_true_r|].
      assert (T : Z.testbit w k = false) by (destruct (Z.eq_dec w 0) as [->|]; [apply Z.bits_0|]; apply Z.bits_above_log2; [lia|]; assert (Z.log2 w < 12) by (apply Z.log2_lt_pow2; lia); lia). rewrite T. reflexivity. }
  rewrite E. rewrite Z.shiftl_mul_pow2 by lia. change (2 ^ 8) with 256. assert (D : 0 <= w / 256 < 16) by (split; [apply Z.div_pos; lia|apply Z.div_lt_upper_bound; lia]). generalize dependent (w / 256). intros p _ P.
  pose proof (sweep2 16 256 (fun p n => Z.lor (p * 256) n =? 256 * p + n) ltac:(vm_compute; reflexivity) p n P N) as S. apply Z.eqb_eq in S. exact S.
Qed.
Lemma x6_ok s d ch : x6 s d ch = high_condition s d ch \/ ch = 8.
Proof.
  unfold x6. change B0 with (Z.shiftl 1 (7 - 0)). change B2 with (Z.shiftl 1 (7 - 2)). change B4 with (Z.shiftl 1 (7 - 4)). change B6 with (Z.shiftl 1 (7 - 6)). change B7 with (Z.shiftl 1 (7 - 7)). rewrite !on_bit by lia. left.
  unfold high_condition. destruct ch as [|p|p]; try reflexivity. do 4 (destruct p as [p|p|]; try reflexivity).
Qed.
Lemma x7_ok s d cl : x7 s d cl = low_condition s d cl.
Proof.
  unfold x7. change B1 with (Z.shiftl 1 (7 - 1)). change B2 with (Z.shiftl 1 (7 - 2)). change B3 with (Z.shiftl 1 (7 - 3)). change B5 with (Z.shiftl 1 (7 - 5)). change B7 with (Z.shiftl 1 (7 - 7)). rewrite !on_bit by lia.
  unfold low_condition. destruct cl as [|p|p]; try reflexivity. do 4 (destruct p as [p|p|]; try reflexivity).
  cbn [Z.eqb Pos.eqb]. rewrite <- andb_orb_distrib_r. reflexivity.
Qed.
Lemma next_ok s d m : 0 <= c_wx s < 4096 -> good_mi m ->
  next s d m = 256 * (if CH m =? 8 then CK m mod 16 else c_wx s / 256) + CN m + 2 * num (high_condition s d (CH m)) + num (low_condition s d (CL m)).
Proof.
  intros W (_ & _ & HCK & _ & HCH & HCN & HCN4 & _). unfold next. cbv zeta. rewrite x7_ok. rewrite page by assumption.
  assert (D : 0 <= c_wx s / 256 < 16) by (split; [apply Z.div_pos; lia|apply Z.div_lt_upper_bound; lia]).
  assert (Q : forall (p : Z) (h l : bool), 0 <= p < 16 -> Z.lor (Z.lor (256 * p + CN m) (if h then 2 else 0)) (if l then 1 else 0) = 256 * p + CN m + 2 * num h + num l).
  { intros p h l P. assert (C4 : CN m = 4 * (CN m / 4)) by (pose proof (Z_div_mod_eq_full (CN m) 4); lia). assert (R : 0 <= CN m / 4 < 64) by (unfold is_byte in HCN; split; [apply Z.div_pos; lia|apply Z.div_lt_upper_bound; lia]). rewrite C4. generalize dependent (CN m / 4). intros q _ R.
    pose proof (sweep2 16 64 (fun p q => forallb (fun h : bool => forallb (fun l : bool => Z.lor (Z.lor (256 * p + 4 * q) (if h then 2 else 0)) (if l then 1 else 0) =? 256 * p + 4 * q + 2 * num h + num l) [true; false]) [true; false]) ltac:(vm_compute; reflexivity) p q P R) as S.
    cbv beta in S. rewrite forallb_forall in S. specialize (S h ltac:(destruct h; cbn; auto)). rewrite forallb_forall in S. specialize (S l ltac:(destruct l; cbn; auto)). apply Z.eqb_eq in S. exact S. }
  destruct (Z.eqb_spec (CH m) 8) as [E|N].
  - rewrite E. cbn [high_condition]. assert (L : Z.land (256 * (c_wx s / 256) + CN m) 255 = CN m).
    { change 255 with (Z.ones 8). rewrite Z.land_ones by lia. change (2 ^ 8) with 256. rewrite Z.add_comm, Z.mul_comm, Z_mod_plus_full. apply Z.mod_small. exact HCN. }
    rewrite L. assert (M : Z.lor (CN m) (Z.shiftl (Z.land (CK m) 15) 8) = 256 * (CK m mod 16) + CN m).
    { change 15 with (Z.ones 4). rewrite Z.land_ones by lia. change (2 ^ 4) with 16. assert (P : 0 <= CK m mod 16 < 16) by (apply Z.mod_pos_bound; lia). rewrite Z.lor_comm, Z.shiftl_mul_pow2 by lia. change (2 ^ 8) with 256. generalize dependent (CK m mod 16). intros p P. unfold is_byte in *.
      pose proof (sweep2 16 256 (fun p n => Z.lor (p * 256) n =? 256 * p + n) ltac:(vm_compute; reflexivity) p (CN m) P HCN) as S. apply Z.eqb_eq in S. exact S. }
    rewrite M. pose proof (Q (CK m mod 16) false (low_condition s d (CL m)) ltac:(apply Z.mod_pos_bound; lia)) as X. rewrite Z.lor_0_r in X. exact X.
  - destruct (x6_ok s d (CH m)) as [->|]; [|contradiction]. apply Q. exact D.
Qed.
