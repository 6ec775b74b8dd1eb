From Verif Require Export D2841.Proofs4.
Open Scope Z_scope.

(** *** All drives move on *)
Lemma unit_mask i : (i < 8)%nat -> Z.shiftr 128 (Z.of_nat i) = Z.shiftl 1 (7 - Z.of_nat i).
Proof. intros I. do 8 (destruct i as [|i]; [reflexivity|]). lia. Qed.
Lemma both_bits x : is_byte x -> (Z.land x 129 =? 129) = bit_of x 0 && bit_of x 7.
Proof. intros X. pose proof (sweep 256 (fun x => Bool.eqb (Z.land x 129 =? 129) (bit_of x 0 && bit_of x 7)) ltac:(vm_compute; reflexivity) x X) as S. apply Bool.eqb_prop in S. exact S. Qed.
Lemma last_bit x : is_byte x -> Z.land x 1 = num (bit_of x 7).
Proof. intros X. pose proof (sweep 256 (fun x => Z.land x 1 =? num (bit_of x 7)) ltac:(vm_compute; reflexivity) x X) as S. apply Z.eqb_eq in S. exact S. Qed.
Lemma gated_is s i : (i < 8)%nat -> regs_ok s -> gated s i = connected s i.
Proof.
  intros I R. unfold gated, connected. rewrite unit_mask by exact I. rewrite both_bits by apply R. change 4 with (Z.shiftl 1 (7 - 5)).
  change (negb (Z.land (c_r s UR) (Z.shiftl 1 (7 - Z.of_nat i)) =? 0)) with (on s UR (Z.shiftl 1 (7 - Z.of_nat i))). rewrite !on_bit by lia. rewrite !andb_assoc. reflexivity.
Qed.
(** What a drive does to the registers. *)
Record round_facts (s s' : ctx) (l : list nat) : Prop := {
  rf_form : exists f dk, s' = set_r f (set_index (c_index s') (set_disk dk s));
  rf_regs : forall r, r <> DR -> r <> ST -> r <> SC -> c_r s' r = c_r s r;
  rf_st : forall k, 0 <= k < 8 -> k <> 4 -> bit_of (c_r s' ST) k = bit_of (c_r s ST) k;
  rf_st4 : bit_of (c_r s ST) 4 = true -> bit_of (c_r s' ST) 4 = true;
  rf_dr : c_r s' DR = c_r s DR \/
          (bit_of (c_r s' ST) 4 = true /\ exists i d x, In i l /\ nth_error (c_disk s) i = Some (Some d) /\ drive_op s i = ORead 0 0 0 /\ dasd_read_byte d 0 0 0 = Ok x /\ o_ret (snd x) <> 0 /\ c_r s' DR = o_data (snd x) mod 256);
  rf_dr' : bit_of (c_r s FC) 1 = false -> c_r s' DR = c_r s DR;
  rf_index : c_index s' = true -> c_index s = true \/ (bit_of (c_r s ST) 1 = true /\ exists i, In i l /\ connected s i = true);
  rf_index' : c_index s = true -> c_index s' = true;
  rf_ok : regs_ok s';
  rf_len : length (c_disk s') = length (c_disk s);
  rf_in : forall i d, In i l -> nth_error (c_disk s) i = Some (Some d) -> exists d', nth_error (c_disk s') i = Some (Some d') /\ do_op d (drive_op s i) = Ok d' /\ bit_of (c_r s' SC) (Z.of_nat i) = bit_of (c_r s SC) (Z.of_nat i) || dasd_check_attn d';
  rf_none : forall i, In i l -> nth_error (c_disk s) i = Some None -> nth_error (c_disk s') i = Some None /\ bit_of (c_r s' SC) (Z.of_nat i) = bit_of (c_r s SC) (Z.of_nat i);
  rf_out : forall i, ~ In i l -> nth_error (c_disk s') i = nth_error (c_disk s) i /\ ((i < 8)%nat -> bit_of (c_r s' SC) (Z.of_nat i) = bit_of (c_r s SC) (Z.of_nat i)) }.

Lemma sets_other r x m s : r <> x -> c_r (sets x m s) r = c_r s r.
Proof. intros N. apply put_other. exact N. Qed.
Lemma setr_other r x v s : r <> x -> c_r (setr x v s) r = c_r s r.
Proof. intros N. apply put_other. exact N. Qed.
Lemma setr_same r v s : c_r (setr r v s) r = v.
Proof. apply put_same. Qed.

(** The middle of [one_drive]: the state before the attention bit. *)
Definition middle (s : ctx) (i : nat) (d : dasd) : res ctx :=
  if gated s i then
    let* r :=
      if on s FC 64 then
        let* x := dasd_read_byte d 0 0 0 in
        let s := put_disk i (fst x) s in
        Ok (if o_ret (snd x) =? 0 then s else setr DR (o_data (snd x) mod 256) (sets ST B4 s), o_ix (snd x))
      else if on s FC 128 then
        let* x := dasd_write_byte d (c_r s DR) (Z.land (c_r s FC) 1) 0 in
        let s := put_disk i (fst x) s in
        Ok (if o_ret (snd x) =? 0 then s else sets ST B4 s, o_ix (snd x))
      else let x := dasd_step d in Ok (put_disk i (fst x) s, snd x) in
    Ok (if on (fst r) ST B1 && negb (snd r =? 0) then set_index true (fst r) else fst r)
  else Ok (put_disk i (fst (dasd_step d)) s).
Lemma one_drive_is s i d : nth_error (c_disk s) i = Some (Some d) ->
  one_drive s i = let* r := middle s i d in match nth_error (c_disk r) i with Some (Some d) => Ok (if dasd_check_attn d then sets SC (Z.shiftr 128 (Z.of_nat i)) r else r) | _ => UB end.
Proof. intros H. unfold one_drive, middle. rewrite H. reflexivity. Qed.
Record mid_facts (s s1 : ctx) (i : nat) (d d' : dasd) : Prop := {
  md_form : exists f, s1 = set_r f (set_index (c_index s1) (set_disk (set_nth i (Some d') (c_disk s)) s));
  md_regs : forall r, r <> DR -> r <> ST -> c_r s1 r = c_r s r;
  md_st : forall k, 0 <= k < 8 -> k <> 4 -> bit_of (c_r s1 ST) k = bit_of (c_r s ST) k;
  md_st4 : bit_of (c_r s ST) 4 = true -> bit_of (c_r s1 ST) 4 = true;
  md_dr : c_r s1 DR = c_r s DR \/ (bit_of (c_r s1 ST) 4 = true /\ exists x, drive_op s i = ORead 0 0 0 /\ dasd_read_byte d 0 0 0 = Ok x /\ o_ret (snd x) <> 0 /\ c_r s1 DR = o_data (snd x) mod 256);
  md_dr' : bit_of (c_r s FC) 1 = false -> c_r s1 DR = c_r s DR;
  md_index : c_index s1 = true -> c_index s = true \/ (bit_of (c_r s ST) 1 = true /\ connected s i = true);
  md_index' : c_index s = true -> c_index s1 = true;
  md_ok : regs_ok s1;
  md_op : do_op d (drive_op s i) = Ok d' }.
Lemma middle_ok s i d s1 : regs_ok s -> (i < 8)%nat -> middle s i d = Ok s1 -> exists d', mid_facts s s1 i d d'.
Proof.
  intros R I H. unfold middle in H. rewrite gated_is in H by assumption.
  assert (OP : drive_op s i = drive_op s i) by reflexivity. unfold drive_op in OP at 2.
  destruct (connected s i) eqn:C.
  2: { injection H as <-. exists (fst (dasd_step d)). split; try (intros; assumption); try (intros; reflexivity); auto.
       - exists (c_r s). destruct s; reflexivity.
       - rewrite OP. reflexivity. }
  change 64 with (Z.shiftl 1 (7 - 1)) in H. change 128 with (Z.shiftl 1 (7 - 0)) in H. rewrite !on_bit in H by lia.
  assert (IX : forall t n s2, (if on t ST B1 && negb (n =? 0) then set_index true t else t) = s2 ->
    c_r s2 = c_r t /\ (exists b, s2 = set_index b t) /\ (c_index s2 = true -> c_index t = true \/ bit_of (c_r t ST) 1 = true) /\ (c_index t = true -> c_index s2 = true)).
  { intros t n s2 E. change B1 with (Z.shiftl 1 (7 - 1)) in E. rewrite on_bit in E by lia. destruct (bit_of (c_r t ST) 1 && negb (n =? 0)) eqn:Q; subst s2.
    - apply andb_true_iff in Q. destruct Q as [Q _]. split; [reflexivity|]. split; [exists true; reflexivity|]. split; [auto|reflexivity].
    - split; [reflexivity|]. split; [exists (c_index t); destruct t; reflexivity|]. auto. }
  destruct (bit_of (c_r s FC) 1) eqn:F1.
  - destruct (dasd_read_byte d 0 0 0) as [x| |] eqn:X; try discriminate. cbn [bind fst snd] in H.
    apply (f_equal (fun x => match x with Ok y => y | _ => s end)) in H. cbv beta iota in H. set (t := if o_ret (snd x) =? 0 then _ else _) in H. destruct (IX t (o_ix (snd x)) s1 H) as (E1 & (b & E2) & E3 & E4). clear H IX.
    exists (fst x).
    assert (T : (exists f, t = set_r f (put_disk i (fst x) s)) /\ (forall r, r <> DR -> r <> ST -> c_r t r = c_r s r) /\ (forall k, 0 <= k < 8 -> k <> 4 -> bit_of (c_r t ST) k = bit_of (c_r s ST) k) /\ (bit_of (c_r s ST) 4 = true -> bit_of (c_r t ST) 4 = true) /\ regs_ok t /\
      (c_r t DR = c_r s DR \/ (bit_of (c_r t ST) 4 = true /\ o_ret (snd x) <> 0 /\ c_r t DR = o_data (snd x) mod 256))).
    { unfold t. destruct (Z.eqb_spec (o_ret (snd x)) 0) as [Z0|NZ].
      - split; [exists (c_r s); destruct s; reflexivity|]. repeat split; auto; apply R.
      - change B4 with (Z.shiftl 1 (7 - 4)). split; [eexists; reflexivity|]. split; [intros r N1 N2; rewrite setr_other, sets_other by assumption; reflexivity|].
        split; [intros k K N; rewrite setr_other by discriminate; rewrite sets_bit by lia; destruct (Z.eqb_spec k 4); [lia|reflexivity]|].
        split; [intros _; rewrite setr_other by discriminate; rewrite sets_bit by lia; reflexivity|].
        split; [intros r; apply put_byte; [apply byte_mod|apply sets_ok; [lia|exact R]]|].
        right. split; [rewrite setr_other by discriminate; rewrite sets_bit by lia; reflexivity|]. split; [exact NZ|]. apply setr_same. }
    destruct T as ((f & T1) & T2 & T3 & T4 & T5 & T6).
    split; try (rewrite E1; first [exact T2|exact T3|exact T4]).
    + exists f. rewrite E2, T1. destruct s; reflexivity.
    + rewrite E1. destruct T6 as [T6|(T6 & T7 & T8)]; [left; exact T6|right]. split; [exact T6|]. exists x. rewrite OP. auto.
    + intros Q; congruence.
    + intros Q. destruct (E3 Q) as [Q1|Q1]; [left; rewrite T1 in Q1; exact Q1|right]. split; [|exact C]. rewrite T3 in Q1 by lia. exact Q1.
    + intros Q. apply E4. rewrite T1. exact Q.
    + intros r. rewrite E1. apply T5.
    + rewrite OP. cbn. rewrite X. reflexivity.
  - destruct (bit_of (c_r s FC) 0) eqn:F0.
    + rewrite last_bit in H by apply R. destruct (dasd_write_byte d (c_r s DR) (num (bit_of (c_r s FC) 7)) 0) as [x| |] eqn:X; try discriminate. cbn [bind fst snd] in H.
      apply (f_equal (fun x => match x with Ok y => y | _ => s end)) in H. cbv beta iota in H. set (t := if o_ret (snd x) =? 0 then _ else _) in H. destruct (IX t (o_ix (snd x)) s1 H) as (E1 & (b & E2) & E3 & E4). clear H IX.
      exists (fst x).
      assert (T : (exists f, t = set_r f (put_disk i (fst x) s)) /\ (forall r, r <> ST -> c_r t r = c_r s r) /\ (forall k, 0 <= k < 8 -> k <> 4 -> bit_of (c_r t ST) k = bit_of (c_r s ST) k) /\ (bit_of (c_r s ST) 4 = true -> bit_of (c_r t ST) 4 = true) /\ regs_ok t).
      { unfold t. destruct (Z.eqb_spec (o_ret (snd x)) 0) as [Z0|NZ].
        - split; [exists (c_r s); destruct s; reflexivity|]. repeat split; auto; apply R.
        - change B4 with (Z.shiftl 1 (7 - 4)). split; [eexists; reflexivity|]. split; [intros r N; rewrite sets_other by assumption; reflexivity|].
          split; [intros k K N; rewrite sets_bit by lia; destruct (Z.eqb_spec k 4); [lia|reflexivity]|].
          split; [intros _; rewrite sets_bit by lia; reflexivity|]. apply sets_ok; [lia|exact R]. }
      destruct T as ((f & T1) & T2 & T3 & T4 & T5).
      split; try (rewrite E1; first [exact T3|exact T4]).
      * exists f. rewrite E2, T1. destruct s; reflexivity.
      * intros r _ N. rewrite E1. apply T2. exact N.
      * left. rewrite E1. apply T2. discriminate.
      * intros _. rewrite E1. apply T2. discriminate.
      * intros Q. destruct (E3 Q) as [Q1|Q1]; [left; rewrite T1 in Q1; exact Q1|right]. split; [|exact C]. rewrite T3 in Q1 by lia. exact Q1.
      * intros Q. apply E4. rewrite T1. exact Q.
      * intros r. rewrite E1. apply T5.
      * rewrite OP. unfold do_op. rewrite X. reflexivity.
    + cbn [bind fst snd] in H.
      apply (f_equal (fun x => match x with Ok y => y | _ => s end)) in H. cbv beta iota in H. set (t := put_disk i (fst (dasd_step d)) s) in H. destruct (IX t _ s1 H) as (E1 & (b & E2) & E3 & E4). clear H IX.
      exists (fst (dasd_step d)). split; try (intros; rewrite E1; reflexivity).
      * exists (c_r s). rewrite E2. unfold t. destruct s; reflexivity.
      * intros Q. rewrite E1. exact Q.
      * left. rewrite E1. reflexivity.
      * intros Q. destruct (E3 Q) as [Q1|Q1]; [left; exact Q1|right; auto].
      * intros Q. apply E4. exact Q.
      * intros r. rewrite E1. apply R.
      * rewrite OP. reflexivity.
Qed.

Lemma attn_ok (b : bool) r i k : (i < 8)%nat -> (k < 8)%nat ->
  bit_of (c_r (if b then sets SC (Z.shiftr 128 (Z.of_nat i)) r else r) SC) (Z.of_nat k) = bit_of (c_r r SC) (Z.of_nat k) || (Nat.eqb k i && b).
Proof.
  intros I K. rewrite unit_mask by exact I. destruct b; [|rewrite andb_false_r, orb_false_r; reflexivity]. rewrite sets_bit by lia. rewrite andb_true_r, orb_comm. f_equal.
  destruct (Z.eqb_spec (Z.of_nat k) (Z.of_nat i)), (Nat.eqb_spec k i); lia || reflexivity.
Qed.
Lemma one_drive_ok s i s' : regs_ok s -> (i < 8)%nat -> length (c_disk s) = 8%nat -> one_drive s i = Ok s' -> round_facts s s' [i].
Proof.
  intros R I LEN H. destruct (nth_error (c_disk s) i) as [[d|]|] eqn:D.
  - rewrite (one_drive_is s i d D) in H. destruct (middle s i d) as [s1| |] eqn:M; try discriminate. cbn [bind] in H. destruct (middle_ok s i d s1 R I M) as (d' & MF). destruct MF as [(f & M0) M1 M2 M3 M4 M5 M6 M7 M8 M9].
    assert (D1 : c_disk s1 = set_nth i (Some d') (c_disk s)) by (rewrite M0; reflexivity).
    assert (LT : (i < length (c_disk s))%nat) by lia.
    rewrite D1, nth_set, Nat.eqb_refl in H by exact LT. apply (f_equal (fun x => match x with Ok y => y | _ => s end)) in H. cbv beta iota in H.
    assert (RO : forall r, r <> SC -> c_r s' r = c_r s1 r) by (intros r N; subst s'; destruct (dasd_check_attn d'); [apply sets_other; exact N|reflexivity]).
    assert (DK : c_disk s' = c_disk s1) by (subst s'; destruct (dasd_check_attn d'); reflexivity).
    assert (IXE : c_index s' = c_index s1) by (subst s'; destruct (dasd_check_attn d'); reflexivity).
    assert (SCB : forall k, (k < 8)%nat -> bit_of (c_r s' SC) (Z.of_nat k) = bit_of (c_r s SC) (Z.of_nat k) || (Nat.eqb k i && dasd_check_attn d')).
    { intros k K. subst s'. rewrite attn_ok by assumption. rewrite (M1 SC) by discriminate. reflexivity. }
    split.
    + subst s'. destruct (dasd_check_attn d'); [|exists f, (set_nth i (Some d') (c_disk s)); exact M0]. assert (GS : forall g, set_r g s1 = set_r g (set_index (c_index s1) (set_disk (set_nth i (Some d') (c_disk s)) s))) by (intros g; rewrite M0 at 1; destruct s; reflexivity).
      exists (put SC (Z.lor (c_r s1 SC) (Z.shiftr 128 (Z.of_nat i))) (c_r s1)), (set_nth i (Some d') (c_disk s)). exact (GS _).
    + intros r N1 N2 N3. rewrite RO by exact N3. apply M1; assumption.
    + intros k K N. rewrite RO by discriminate. apply M2; assumption.
    + intros Q. rewrite RO by discriminate. apply M3; exact Q.
    + rewrite !RO by discriminate. destruct M4 as [M4|(M4 & x & X)]; [left; exact M4|right]. split; [exact M4|]. exists i, d, x. split; [left; reflexivity|]. split; [exact D|exact X].
    + intros Q. rewrite RO by discriminate. apply M5; exact Q.
    + rewrite IXE. intros Q. destruct (M6 Q) as [Q1|[Q1 Q2]]; [left; exact Q1|right]. split; [exact Q1|]. exists i. split; [left; reflexivity|exact Q2].
    + rewrite IXE. exact M7.
    + intros r. subst s'. destruct (dasd_check_attn d'); [|apply M8]. rewrite unit_mask by exact I. apply sets_ok; [lia|exact M8].
    + rewrite DK, D1. apply len_set. exact LT.
    + intros j dj [<-|[]] DJ. rewrite D in DJ. injection DJ as <-. exists d'. rewrite DK, D1, nth_set, Nat.eqb_refl by exact LT. split; [reflexivity|]. split; [exact M9|]. rewrite SCB by exact I. rewrite Nat.eqb_refl. reflexivity.
    + intros j [<-|[]] DJ. congruence.
    + intros j NJ. assert (N : j <> i) by (intros ->; apply NJ; left; reflexivity). rewrite DK, D1, nth_set by exact LT. destruct (Nat.eqb_spec j i); [contradiction|]. split; [reflexivity|]. intros J. rewrite SCB by exact J. destruct (Nat.eqb_spec j i); [contradiction|]. apply orb_false_r.
  - unfold one_drive in H. rewrite D in H. injection H as <-. split; auto.
    + exists (c_r s), (c_disk s). destruct s; reflexivity.
    + intros j dj [<-|[]] DJ. congruence.
  - apply nth_error_None in D. lia.
Qed.
Lemma connected_same s s1 i : (forall r, r <> DR -> r <> ST -> r <> SC -> c_r s1 r = c_r s r) -> connected s1 i = connected s i.
Proof. intros E. unfold connected. rewrite !E by discriminate. reflexivity. Qed.
Lemma drive_op_same s s1 i : (forall r, r <> DR -> r <> ST -> r <> SC -> c_r s1 r = c_r s r) -> (bit_of (c_r s FC) 1 = false -> c_r s1 DR = c_r s DR) -> drive_op s1 i = drive_op s i.
Proof. intros E D. unfold drive_op. rewrite (connected_same s s1 i E). rewrite !E by discriminate. destruct (bit_of (c_r s FC) 1); [reflexivity|]. rewrite D; reflexivity. Qed.
Lemma drives_from_ok l : forall s s', regs_ok s -> NoDup l -> (forall i, In i l -> (i < 8)%nat) -> length (c_disk s) = 8%nat -> drives_from l s = Ok s' -> round_facts s s' l.
Proof.
  induction l as [|i l IH]; intros s s' R ND LT LEN H.
  - injection H as <-. split; auto.
    + exists (c_r s), (c_disk s). destruct s; reflexivity.
    + intros j dj [].
  - cbn [drives_from] in H. destruct (one_drive s i) as [s1| |] eqn:E; try discriminate. cbn [bind] in H.
    pose proof (one_drive_ok s i s1 R (LT i (or_introl eq_refl)) LEN E) as F1. inversion ND as [|? ? NI ND']; subst.
    assert (F2 : round_facts s1 s' l) by (apply IH; [apply (rf_ok _ _ _ F1)|exact ND'|intros j J; apply LT; right; exact J|rewrite (rf_len _ _ _ F1); exact LEN|exact H]).
    destruct F1 as [(f & dk & A0) A1 A2 A3 A4 A5 A6 A7 A8 A9 A10 A11 A12]. destruct F2 as [(g & dk2 & Z0) Z1 Z2 Z3 Z4 Z5 Z6 Z7 Z8 Z9 Z10 Z11 Z12].
    assert (OPS : forall j, drive_op s1 j = drive_op s j) by (intros j; apply drive_op_same; assumption).
    assert (CON : forall j, connected s1 j = connected s j) by (intros j; apply connected_same; assumption).
    split.
    + exists g, dk2. rewrite Z0 at 1. rewrite A0. destruct s; reflexivity.
    + intros r N1 N2 N3. rewrite Z1, A1 by assumption. reflexivity.
    + intros k K N. rewrite Z2, A2 by assumption. reflexivity.
    + auto.
    + destruct Z4 as [Z4|(Z4 & j & d & x & J & DJ & OJ & X)].
      * rewrite Z4. destruct A4 as [A4|(A4 & j & d & x & J & DJ & X)]; [left; exact A4|right]. split; [apply Z3; exact A4|]. exists j, d, x. destruct J as [<-|[]]. split; [left; reflexivity|]. auto.
      * right. split; [exact Z4|]. exists j, d, x. split; [right; exact J|]. split; [|rewrite <- OPS; auto]. rewrite <- DJ. symmetry. apply A12. intros [->|[]]. contradiction.
    + intros Q. rewrite Z5, A5; [reflexivity|exact Q|]. rewrite A1 by discriminate. exact Q.
    + intros Q. destruct (Z6 Q) as [Q1|(Q1 & j & J & CJ)].
      * destruct (A6 Q1) as [Q2|(Q2 & j & J & CJ)]; [left; exact Q2|right]. split; [exact Q2|]. exists j. destruct J as [<-|[]]. split; [left; reflexivity|exact CJ].
      * right. split; [rewrite A2 in Q1 by lia; exact Q1|]. exists j. split; [right; exact J|]. rewrite <- CON. exact CJ.
    + auto.
    + exact Z8.
    + congruence.
    + intros j d [<-|J] DJ.
      * destruct (A10 i d (or_introl eq_refl) DJ) as (d' & B1 & B2 & B3). destruct (Z12 i NI) as (C1 & C2). exists d'. rewrite C1. split; [exact B1|]. split; [exact B2|]. rewrite C2 by (apply LT; left; reflexivity). exact B3.
      * assert (NE : ~ In j [i]) by (intros [->|[]]; contradiction). destruct (A12 j NE) as (B1 & B2). rewrite <- B1 in DJ. destruct (Z10 j d J DJ) as (d' & C1 & C2 & C3). exists d'. split; [exact C1|]. split; [rewrite <- OPS; exact C2|]. rewrite C3, B2 by (apply LT; right; exact J). reflexivity.
    + intros j [<-|J] DJ.
      * destruct (A11 i (or_introl eq_refl) DJ) as (B1 & B2). destruct (Z12 i NI) as (C1 & C2). rewrite C1, C2 by (apply LT; left; reflexivity). auto.
      * assert (NE : ~ In j [i]) by (intros [->|[]]; contradiction). destruct (A12 j NE) as (B1 & B2). rewrite <- B1 in DJ. destruct (Z11 j J DJ) as (C1 & C2). split; [exact C1|]. rewrite C2, B2 by (apply LT; right; exact J). reflexivity.
    + intros j NJ. assert (NE : ~ In j [i]) by (intros [->|[]]; apply NJ; left; reflexivity). assert (NE2 : ~ In j l) by (intros J; apply NJ; right; exact J). destruct (A12 j NE) as (B1 & B2). destruct (Z12 j NE2) as (C1 & C2). split; [congruence|]. intros J. rewrite C2, B2 by exact J. reflexivity.
Qed.
Lemma clrs_other r x m s : r <> x -> c_r (clrs x m s) r = c_r s r.
Proof. intros N. apply put_other. exact N. Qed.
