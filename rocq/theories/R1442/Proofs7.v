(** The card reader and punch: the commands, sense, punching. *)
From Verif Require Import R1442.Spec2 R1442.Proofs R1442.Proofs2 R1442.Proofs3 R1442.Proofs4 R1442.Proofs5 R1442.Proofs6.

Definition kind2 (c : Z) : kind :=
  let k := Z.land c 7 in
  if k =? 0 then Test else if k =? 1 then (if bit c 92 then Refused else Write) else if k =? 2 then (if bit c 220 then Refused else Read)
  else if k =? 3 then (if bit c 92 then Refused else Control) else if k =? 4 then (if negb (c =? 4) then Refused else Sense) else Refused.
Definition kind_eqb (x y : kind) : bool := match x, y with Test, Test | Write, Write | Read, Read | Control, Control | Sense, Sense | Refused, Refused => true | _, _ => false end.
Lemma kind_same c : is_byte c -> c = 0 \/ c mod 8 <> 0 -> kind_of c = kind2 c.
Proof.
  intros B N. pose proof (sweep 256 (fun c => (negb (c =? 0) && (c mod 8 =? 0)) || kind_eqb (kind_of c) (kind2 c)) ltac:(vm_compute; reflexivity) c B) as S. cbn beta in S.
  apply orb_true_iff in S. destruct S as [S|S].
  - apply andb_true_iff in S. destruct S as [S1 S2]. apply Z.eqb_eq in S2. destruct N as [->|N]; [discriminate|congruence].
  - destruct (kind_of c), (kind2 c); try discriminate; reflexivity.
Qed.
(** What the sense byte says after a command is refused, or the device is not ready. *)
Lemma cmd_table s c : is_byte c -> c = 0 \/ c mod 8 <> 0 -> d_status s = 0 ->
  d_status (device_cmd s c) = first_status c s /\
  (kind_of c = Refused -> bit (d_sense (device_cmd s c)) S_CMDREJ = true) /\
  (kind_of c = Read -> d_rdy s = false -> bit (d_sense (device_cmd s c)) S_INTERV = true) /\
  (kind_of c = Control -> bit c 128 = true -> d_rdy s = false -> bit (d_sense (device_cmd s c)) S_INTERV = true).
Proof.
  intros B N Z0. unfold first_status. rewrite (kind_same c B N). unfold kind2, device_cmd. destruct s as [v0 v1 v2 v3 v4 v5 v6 v7 v8 v9 v10 v11 v12 v13 v14 v15 v16 v17 v18 v19 v20 v21 v22 v23 v24 v25 v26 v27 v28 v29].
  assert (LN : forall x m, 0 < m -> (Z.lor x m =? 0) = false).
  { intros x m P. apply Z.eqb_neq. intros E. apply Z.lor_eq_0_iff in E. lia. }
  assert (LB : forall x m, 0 < m -> bit (Z.lor x m) m = true).
  { intros x m P. unfold bit. rewrite Z.land_comm, (Z.lor_comm x m), Z.land_lor_distr_r, Z.land_diag. apply negb_true_iff. rewrite Z.lor_comm. apply LN, P. }
  pose proof (LB v6 S_CMDREJ eq_refl) as L0. pose proof (LN v6 S_CMDREJ eq_refl) as L0'.
  pose proof (LB (Z.land v6 S_INTERV) S_CMDREJ eq_refl) as L1. pose proof (LN (Z.land v6 S_INTERV) S_CMDREJ eq_refl) as L1'.
  pose proof (LB (Z.land v6 S_INTERV) S_INTERV eq_refl) as L2. pose proof (LN (Z.land v6 S_INTERV) S_INTERV eq_refl) as L2'.
  unfold cmd_end. nrm. cbn [negb].
  destruct (Z.land c 7 =? 0); [|destruct (Z.land c 7 =? 1); [destruct (bit c 92)|destruct (Z.land c 7 =? 2); [destruct (bit c 220)|destruct (Z.land c 7 =? 3); [destruct (bit c 92)|destruct (Z.land c 7 =? 4); [destruct (negb (c =? 4))|]]]]]; nrm.
  - destruct (v6 =? 0); nrm; (split; [reflexivity|]); repeat split; intros; discriminate.
  - rewrite L1'. split; [reflexivity|]. split; [intros _; exact L1|]. split; discriminate.
  - destruct v24; cbn [negb]; nrm; [split; [reflexivity|]; repeat split; intros; discriminate|]. destruct (Z.land v6 S_INTERV =? 0); (split; [reflexivity|]); repeat split; intros; discriminate.
  - rewrite L1'. split; [reflexivity|]. split; [intros _; exact L1|]. split; discriminate.
  - destruct v26; cbn [negb]; nrm; [split; [reflexivity|]; repeat split; intros; discriminate|]. rewrite L2'. split; [reflexivity|]. split; [discriminate|]. split; [intros; exact L2|discriminate].
  - rewrite L1'. split; [reflexivity|]. split; [intros _; exact L1|]. split; discriminate.
  - destruct (bit c 128); cbn [negb]; nrm; [|split; [reflexivity|]; repeat split; intros; discriminate].
    destruct v26; cbn [negb]; nrm; [split; [reflexivity|]; repeat split; intros; discriminate|]. rewrite L2'. split; [reflexivity|]. split; [discriminate|]. split; [discriminate|intros; exact L2].
  - rewrite L0'. split; [reflexivity|]. split; [intros _; exact L0|]. split; discriminate.
  - split; [reflexivity|]. repeat split; intros; discriminate.
  - rewrite L0'. split; [reflexivity|]. split; [intros _; exact L0|]. split; discriminate.
Qed.
Lemma first_byte c s : is_byte (first_status c s).
Proof. unfold first_status. destruct (kind_of c); repeat match goal with |- context [if ?b then _ else _] => destruct b end; split; try discriminate; reflexivity. Qed.

Lemma odd_good z : odd9 z -> bad_parity z = Ok false.
Proof.
  intros [R O]. pose proof (sweep 512 (fun z => negb (odd_bits 9 z) || match bad_parity z with Ok f => negb f | _ => false end) ltac:(vm_compute; reflexivity) z R) as S. cbn beta in S.
  rewrite O in S. cbn [negb orb] in S. destruct (bad_parity z) as [[|]| |]; try discriminate. reflexivity.
Qed.
(** *** Punching *)
Definition is_write (c : Z) : Prop := In c [1; 33; 129; 161].
Definition wr_dev (cm : Z) (req disc : bool) sense data post fd feed k0 k1 c k full hop pc pcol stk rdy eof stop : dev :=
  mkD OPR true req false disc true sense cm false 0 data true false post fd feed k0 k1 c k full hop pc pcol true stk rdy eof stop [CbWrite].
Lemma cmd_write cm v1 v2 v4 v6 v7 v8 v10 v11 v12 v13 v14 v15 v16 v17 v18 v19 v20 v21 v22 v23 v25 v26 v27 v28 : is_write cm ->
  device_cmd (mkD STATUS v1 v2 false v4 false v6 v7 v8 0 v10 v11 v12 v13 v14 v15 v16 v17 v18 v19 v20 v21 v22 v23 true v25 v26 v27 v28 []) cm =
  mkD STATUS v1 v2 false v4 true (Z.land v6 64) cm false 0 v10 true false v13 false v15 v16 v17 v18 v19 v20 v21 v22 v23 true (bit cm 32) v26 v27 v28 [CbWrite].
Proof. intros [<-|[<-|[<-|[<-|[]]]]]; reflexivity. Qed.

Lemma punch_past l : forall k c, (length c <= k)%nat -> punch_from k l c = c.
Proof.
  assert (U : forall (c : card) k v, (length c <= k)%nat -> upd c k v = c).
  { induction c as [|x c IH]; intros k v L; [destruct k; reflexivity|]. destruct k; cbn [length] in L; [lia|]. cbn [upd]. rewrite IH by lia. reflexivity. }
  induction l as [|b l IH]; intros k c L; cbn [punch_from]; [reflexivity|]. rewrite U by exact L. apply IH. lia.
Qed.

Lemma punch_card l : forall k c, is_card c -> Forall is_byte l -> is_card (punch_from k l c).
Proof.
  induction l as [|b l IH]; intros k c C F; cbn [punch_from]; [exact C|]. inversion F as [|? ? B F']; subst. apply IH; [|exact F'].
  destruct (ebcdic_inverse b B) as (h & R & I1 & _). unfold ebcdic_to_hol, tab in I1. destruct (b <? 0); [discriminate|]. destruct (nth_error ebcdic_to_hol_table (Z.to_nat b)) eqn:NE; [|discriminate]. injection I1 as ->. rewrite (nth_error_nth _ _ _ NE).
  destruct (Nat.lt_ge_cases k (length c)) as [L|L].
  - pose proof (card_col c (Z.of_nat k) (nth k c 0) h C) as P. unfold upd_card in P. rewrite Nat2Z.id in P. apply P; [|exact R]. unfold tab. replace (Z.of_nat k <? 0) with false by lia. rewrite Nat2Z.id, (nth_error_nth' c 0) by exact L. reflexivity.
  - pose proof (punch_past [b] k c L) as P. cbn [punch_from] in P. rewrite (nth_error_nth _ _ _ NE) in P. rewrite P. exact C.
Qed.
Lemma loaded_deck c cs p : is_card c -> is_card p -> Forall is_card cs -> deck c cs (loaded c cs p).
Proof.
  intros C P F. assert (U : unread (Ctx MAuto cs (length cs) 0 None) = cs) by (unfold unread; cbn [c_cards c_pos c_images skipn]; rewrite Nat.sub_0_r; apply firstn_all).
  unfold deck, loaded. cbn [d_st d_sel d_req d_stk d_busy d_status d_pend d_rdy d_stop d_rdr_full d_rdr_card d_rdr_col d_feed d_hop_cnt]. repeat (split; [first [reflexivity|exact U]|]).
  unfold cards_ok. cbn [d_feed d_stack0 d_stack1 d_rdr_card d_pch_card]. split; [split; [unfold ctx_ok; cbn; lia|rewrite U; exact F]|].
  split; [split; [unfold ctx_ok; cbn; lia|constructor]|]. split; [split; [unfold ctx_ok; cbn; lia|constructor]|]. split; assumption.
Qed.
Lemma card_by c : length c = 80%nat -> forallb (fun h => (0 <=? h) && (h <? 4096)) c = true -> is_card c.
Proof. intros L H. split; [exact L|]. apply Forall_forall. intros h I. rewrite forallb_forall in H. specialize (H h I). lia. Qed.
Lemma past_parity b : 256 <= b -> with_parity b = UB.
Proof.
  intros H. unfold with_parity. assert (E : tab odd_parity b = UB); [|rewrite E; reflexivity]. unfold tab. replace (b <? 0) with false by lia.
  destruct (nth_error odd_parity (Z.to_nat b)) eqn:N; [|reflexivity]. assert (nth_error odd_parity (Z.to_nat b) <> None) as L by congruence. apply nth_error_Some in L. change (length odd_parity) with 256%nat in L. lia.
Qed.

Section Dialogue.
  Variables a pa : Z.
  Hypothesis A : is_byte a.
  Hypothesis PA : with_parity a = Ok pa.
  Lemma table s c pc bi : resting s -> is_byte c -> with_parity c = Ok pc -> c = 0 \/ c mod 8 <> 0 ->
    exists s' t' b', talk a (ask pa pc) s free bi = Ok (s', t', b', [first_status c s], []) /\
      (kind_of c = Refused -> bit (d_sense s') S_CMDREJ = true) /\ (kind_of c = Read -> d_rdy s = false -> bit (d_sense s') S_INTERV = true) /\
      (kind_of c = Control -> bit c 128 = true -> d_rdy s = false -> bit (d_sense s') S_INTERV = true).
  Proof.
    intros (R1 & R2 & R3 & R4) B PC N. pose proof (pa_low a pa A PA) as LA. pose proof (pa_good a pa A PA) as GA. pose proof (PA' a pa A PA) as PA1.
    pose proof (parity_good c pc B PC) as GC. destruct (w_byte c B) as (y & E & LC). rewrite PC in E. injection E as <-. destruct (w_byte _ (first_byte c s)) as (w & EW & LW).
    destruct s as [v0 v1 v2 v3 v4 v5 v6 v7 v8 v9 v10 v11 v12 v13 v14 v15 v16 v17 v18 v19 v20 v21 v22 v23 v24 v25 v26 v27 v28 v29]. cbn [d_st d_busy d_status d_stk] in *. subst v0 v5 v9 v3.
    set (s1 := mkD STATUS true false false false false v6 v7 v8 0 v10 v11 v12 v13 v14 v15 v16 v17 v18 v19 v20 v21 v22 v23 v24 v25 v26 v27 v28 v29).
    destruct (cmd_table s1 c B N eq_refl) as (T1 & T2 & T3 & T4). change (first_status c s1) with (first_status c (mkD IDLE v1 v2 false v4 false v6 v7 v8 0 v10 v11 v12 v13 v14 v15 v16 v17 v18 v19 v20 v21 v22 v23 v24 v25 v26 v27 v28 v29)) in T1.
    rewrite <- T1 in EW. assert (S2 : d_st (device_cmd s1 c) = STATUS).
    { unfold device_cmd, cmd_end, s1. nrm. repeat match goal with |- context [if ?b then _ else _] => destruct b; nrm end; reflexivity. }
    do 3 eexists. split; [|split; [|split]].
    - unfold ask, free. st r_select. st r_init. st r_command. rewrite LC. fold s1. eapply talk_cyc; [eapply (r_status a (device_cmd s1 c)); [exact S2|reflexivity|exact EW]| apply talk_nil| |]. all: cbn; rewrite ?LW; reflexivity.
    - exact T2.
    - exact T3.
    - exact T4.
  Qed.
  (** Sense. *)
  Lemma sense s pc bi : resting s -> is_byte (d_sense s) -> with_parity 4 = Ok pc ->
    exists s' b', talk a (sense_whole pa pc) s free bi = Ok (s', free, b', [0; CED], [d_sense s]) /\ resting s' /\ d_sense s' = d_sense s.
  Proof.
    intros (R1 & R2 & R3 & R4) B PC. pose proof (pa_low a pa A PA) as LA. pose proof (pa_good a pa A PA) as GA. pose proof (PA' a pa A PA) as PA1.
    assert (B4 : is_byte 4) by (split; [discriminate|reflexivity]). assert (B12 : is_byte 12) by (split; [discriminate|reflexivity]). assert (B0 : is_byte 0) by (split; [discriminate|reflexivity]).
    pose proof (parity_good 4 pc B4 PC) as GC. destruct (w_byte 4 B4) as (y & E & LC). rewrite PC in E. injection E as <-. destruct (w_byte _ B) as (w & EW & LW). destruct (w_byte _ B12) as (w2 & EW2 & LW2). destruct (w_byte _ B0) as (w0 & EW0 & LW0).
    destruct s as [v0 v1 v2 v3 v4 v5 v6 v7 v8 v9 v10 v11 v12 v13 v14 v15 v16 v17 v18 v19 v20 v21 v22 v23 v24 v25 v26 v27 v28 v29]. cbn [d_st d_busy d_status d_stk d_sense] in *. subst v0 v5 v9 v3.
    do 2 eexists. split; [|split].
    - unfold sense_whole, start_io, ask, free, take_end. cbn [app]. st r_select. st r_init. st r_command. rewrite LC.
      change (device_cmd (mkD STATUS true false false false false v6 v7 v8 0 v10 v11 v12 v13 v14 v15 v16 v17 v18 v19 v20 v21 v22 v23 v24 v25 v26 v27 v28 v29) 4) with
        (mkD STATUS true false false false false v6 4 false 0 v6 true false v13 false v15 v16 v17 v18 v19 v20 v21 v22 v23 v24 v25 v26 v27 v28 v29).
      st r_status. st r_accept_opr. st r_opr_data. st r_data1. st r_data2_read. st r_opr_sense. st r_end_status. st r_end_done. st r_wait. apply talk_nil. all: ends ltac:(rewrite ?LW, ?LW2, ?LW0).
    - repeat split.
    - reflexivity.
  Qed.

  Lemma start_write cm pc v1 v2 v4 v6 v7 v8 v10 v11 v12 v13 v14 v15 v16 v17 v18 v19 v20 v21 v22 v23 v25 v26 v27 v28 bi : is_write cm -> with_parity cm = Ok pc ->
    exists b', talk a (start_io pa pc) (mkD IDLE v1 v2 false v4 false v6 v7 v8 0 v10 v11 v12 v13 v14 v15 v16 v17 v18 v19 v20 v21 v22 v23 true v25 v26 v27 v28 []) free bi =
      Ok (wr_dev cm false false (Z.land v6 64) v10 v13 false v15 v16 v17 v18 v19 v20 v21 v22 v23 (bit cm 32) v26 v27 v28, rd_tags, b', [0], []).
  Proof.
    intros C PC. pose proof (pa_low a pa A PA) as LA. pose proof (pa_good a pa A PA) as GA. pose proof (PA' a pa A PA) as PA1.
    assert (B : is_byte cm) by (destruct C as [<-|[<-|[<-|[<-|[]]]]]; split; try discriminate; reflexivity).
    pose proof (parity_good cm pc B PC) as GC. destruct (w_byte cm B) as (y & E & LC). rewrite PC in E. injection E as <-. destruct (w_byte 0 ltac:(split; [discriminate|reflexivity])) as (w & EW & LW).
    assert (C0 : (cm =? 0) = false) by (destruct C as [<-|[<-|[<-|[<-|[]]]]]; reflexivity).
    eexists. unfold start_io, ask, free. cbn [app]. st r_select. st r_init. st r_command. rewrite LC, (cmd_write cm) by exact C. st r_status. st r_accept_opr. apply talk_nil. all: ends ltac:(rewrite ?LW).
  Qed.
  Lemma fire_write cm req disc sense post fd feed k0 k1 c k full hop pc (n : nat) stk rdy eof stop b : is_byte b -> length pc = 80%nat ->
    fire (mkD OPR true req false disc true sense cm false 0 b false false post fd feed k0 k1 c k full hop pc (Z.of_nat (Nat.min n 80)) true stk rdy eof stop [CbWrite]) CbWrite =
    Ok (wr_dev cm true disc sense b post fd feed k0 k1 c k full hop (upd pc n (Z.lor (nth n pc 0) (nth (Z.to_nat b) ebcdic_to_hol_table 0))) (Z.of_nat (Nat.min (S n) 80)) stk rdy eof stop).
  Proof.
    intros B L. unfold fire. nrm. unfold write_cb. nrm. destruct (Z.ltb_spec (Z.of_nat (Nat.min n 80)) 80) as [H|H].
    - assert (N : (n < 80)%nat) by lia. replace (Nat.min n 80) with n by lia. replace (Nat.min (S n) 80) with (S n) by lia. unfold col, tab. replace (Z.of_nat n <? 0) with false by lia. rewrite Nat2Z.id.
      rewrite (nth_error_nth' pc 0) by lia. cbn [bind]. rewrite Z.mod_small by exact B. destruct (ebcdic_inverse b B) as (h & _ & I1 & _). rewrite I1. cbn [bind]. unfold upd_card. rewrite Nat2Z.id.
      unfold ebcdic_to_hol, tab in I1. destruct (b <? 0); [discriminate|]. destruct (nth_error ebcdic_to_hol_table (Z.to_nat b)) eqn:NE; [|discriminate]. injection I1 as ->. rewrite (nth_error_nth _ _ _ NE). replace (Z.of_nat n + 1) with (Z.of_nat (S n)) by lia. reflexivity.
    - replace (Nat.min n 80) with 80%nat by lia. replace (Nat.min (S n) 80) with 80%nat by lia. cbn [bind]. nrm. pose proof (punch_past [b] n pc ltac:(lia)) as P. cbn [punch_from] in P. rewrite P. reflexivity.
  Qed.
  Lemma one_give cm req disc sense data post fd feed k0 k1 c k full hop pc (n : nat) stk rdy eof stop b bi : bit cm 1 = true -> is_byte data -> is_byte b -> odd9 b -> length pc = 80%nat -> exists b' es,
    talk a (give b) (wr_dev cm req disc sense data post fd feed k0 k1 c k full hop pc (Z.of_nat (Nat.min n 80)) stk rdy eof stop) rd_tags bi =
    Ok (wr_dev cm true true sense b post fd feed k0 k1 c k full hop (upd pc n (Z.lor (nth n pc 0) (nth (Z.to_nat b) ebcdic_to_hol_table 0))) (Z.of_nat (Nat.min (S n) 80)) stk rdy eof stop, rd_tags, b', [], es).
  Proof.
    intros C D B O L. destruct (w_byte _ D) as (w & W & LW). pose proof (odd_good b O) as GB. do 2 eexists. unfold give, wr_dev, rd_tags. st r_opr_data. st r_data1. st r_data2_write.
    eapply talk_fire; [apply (fire_write cm false true sense post fd feed k0 k1 c k full hop pc n stk rdy eof stop b B L)|]. apply talk_nil. all: reflexivity.
  Qed.
  Lemma gives cm sense post fd feed k0 k1 c k full hop stk rdy eof stop l : bit cm 1 = true -> Forall (fun b => is_byte b /\ odd9 b) l -> forall req disc data pc (n : nat) bi, is_byte data -> length pc = 80%nat -> exists req' disc' data' b' es,
    talk a (concat (map give l)) (wr_dev cm req disc sense data post fd feed k0 k1 c k full hop pc (Z.of_nat (Nat.min n 80)) stk rdy eof stop) rd_tags bi =
    Ok (wr_dev cm req' disc' sense data' post fd feed k0 k1 c k full hop (punch_from n l pc) (Z.of_nat (Nat.min (n + length l) 80)) stk rdy eof stop, rd_tags, b', [], es) /\ is_byte data'.
  Proof.
    intros C F. induction F as [|b l [B O] F IH]; intros req disc data pc n bi D L.
    - do 5 eexists. split; [|exact D]. cbn [map concat punch_from length]. rewrite Nat.add_0_r. apply talk_nil.
    - destruct (one_give cm req disc sense data post fd feed k0 k1 c k full hop pc n stk rdy eof stop b bi C D B O L) as (b1 & e1 & E1).
      destruct (IH true true b (upd pc n (Z.lor (nth n pc 0) (nth (Z.to_nat b) ebcdic_to_hol_table 0))) (S n) b1 B ltac:(rewrite upd_length; exact L)) as (r2 & i2 & d2 & b2 & e2 & E2 & B2).
      do 5 eexists. split; [|exact B2]. cbn [map concat punch_from length]. replace (n + S (length l))%nat with (S n + length l)%nat by lia. eapply talk_two; [exact E1|exact E2|reflexivity|reflexivity].
  Qed.
  Lemma finish cm req disc sense data post fd feed k0 k1 c k full hop pc pcol stk rdy eof stop z bi : In cm [1; 33] -> is_byte data -> odd9 z -> exists req' disc' b' es,
    talk a (no_more z ++ take_end) (wr_dev cm req disc (Z.land sense 64) data post fd feed k0 k1 c k full hop pc pcol stk rdy eof stop) rd_tags bi =
    Ok (mkD IDLE false req' false disc' false (Z.land sense 64) 0 false 0 z false false post fd feed k0 k1 c k full hop pc pcol true stk rdy eof stop [], free, b', [CED + if Z.land sense 64 =? 0 then 0 else SNS_UNITCHK], es).
  Proof.
    intros C D O. destruct (w_byte _ D) as (w & W & LW). pose proof (odd_good z O) as GB. assert (C1 : bit cm 1 = true) by (destruct C as [<-|[<-|[]]]; reflexivity).
    set (stt := CED + if Z.land sense 64 =? 0 then 0 else SNS_UNITCHK). assert (BS : is_byte stt) by (subst stt; destruct (Z.land sense 64 =? 0); split; try discriminate; reflexivity). destruct (w_byte _ BS) as (w2 & W2 & LW2).
    assert (DS : device_stop (mkD OPR true false false disc true (Z.land sense 64) cm false 0 z false false post fd feed k0 k1 c k full hop pc pcol true stk rdy eof stop [CbWrite]) =
      mkD OPR true false false disc false (Z.land sense 64) 0 true stt z false true post fd feed k0 k1 c k full hop pc pcol true stk rdy eof stop []).
    { unfold device_stop. nrm. destruct C as [<-|[<-|[]]]; change (Z.land 1 3 =? 1) with true; change (Z.land 33 3 =? 1) with true; change (bit 1 128) with false; change (bit 33 128) with false; subst stt; nrm; destruct (Z.land sense 64 =? 0); reflexivity. }
    do 4 eexists. unfold no_more, take_end, wr_dev, rd_tags. cbn [app]. st r_opr_data. st r_data1. st r_data2_stop. rewrite DS. nrm. st r_opr_end. st r_end_status. st r_end_done. st r_wait. apply talk_nil. all: ends ltac:(rewrite ?LW2).
  Qed.
  Lemma finish_feed cm req disc sense data post fd feed k0 k1 c k full hop pc pcol stk rdy eof stop z bi : In cm [129; 161] -> is_byte data -> odd9 z -> exists req' disc' b' es,
    talk a (no_more z ++ take_end) (wr_dev cm req disc sense data post fd feed k0 k1 c k full hop pc pcol stk rdy eof stop) rd_tags bi =
    Ok (mkD IDLE false req' false disc' true sense cm false 0 z false true post fd feed k0 k1 c k full hop pc pcol true stk rdy eof stop [CbFeed], free, b', [8], es).
  Proof.
    intros C D O. destruct (w_byte _ D) as (w & W & LW). pose proof (odd_good z O) as GB. assert (C1 : bit cm 1 = true) by (destruct C as [<-|[<-|[]]]; reflexivity).
    assert (BS : is_byte 8) by (split; [discriminate|reflexivity]). destruct (w_byte _ BS) as (w2 & W2 & LW2).
    assert (DS : device_stop (mkD OPR true false false disc true sense cm false 0 z false false post fd feed k0 k1 c k full hop pc pcol true stk rdy eof stop [CbWrite]) =
      mkD OPR true false false disc true sense cm false 8 z false true post fd feed k0 k1 c k full hop pc pcol true stk rdy eof stop [CbFeed]).
    { unfold device_stop. nrm. destruct C as [<-|[<-|[]]]; reflexivity. }
    assert (C4 : (cm =? 4) = false) by (destruct C as [<-|[<-|[]]]; reflexivity).
    do 4 eexists. unfold no_more, take_end, wr_dev, rd_tags. cbn [app]. st r_opr_data. st r_data1. st r_data2_stop. rewrite DS. nrm. st r_opr_end. st r_end_status. st r_end_accept. st r_wait. apply talk_nil. all: ends ltac:(rewrite ?LW2).
  Qed.
  (** Punching without a feed. *)
  Lemma write_stay s cm pc l z bi : resting s -> d_pend s = [] -> d_pch_full s = true -> d_pch_col s = 0 -> length (d_pch_card s) = 80%nat -> is_byte (d_data s) -> In cm [1; 33] -> with_parity cm = Ok pc ->
    Forall (fun b => is_byte b /\ odd9 b) l -> odd9 z ->
    exists s' b' es, talk a (write_whole pa pc l z) s free bi = Ok (s', free, b', [0; CED + if Z.land (d_sense s) S_INTERV =? 0 then 0 else SNS_UNITCHK], es) /\
      resting s' /\ d_pch_full s' = true /\ d_pch_card s' = punch_from 0 l (d_pch_card s) /\ d_stk_sel s' = bit cm 32.
  Proof.
    intros (R1 & R2 & R3 & R4) PE PF PC0 PL D C PC F O.
    destruct s as [v0 v1 v2 v3 v4 v5 v6 v7 v8 v9 v10 v11 v12 v13 v14 v15 v16 v17 v18 v19 v20 v21 v22 v23 v24 v25 v26 v27 v28 v29]. cbn [d_st d_busy d_status d_stk d_pend d_pch_full d_pch_col d_pch_card d_data] in *. subst v0 v5 v9 v3 v29 v24 v23.
    assert (C1 : bit cm 1 = true) by (destruct C as [<-|[<-|[]]]; reflexivity). assert (CW : is_write cm) by (destruct C as [<-|[<-|[]]]; cbn; auto).
    destruct (start_write cm pc v1 v2 v4 v6 v7 v8 v10 v11 v12 v13 v14 v15 v16 v17 v18 v19 v20 v21 v22 0 v25 v26 v27 v28 bi CW PC) as [b1 E1].
    destruct (gives cm (Z.land v6 64) v13 false v15 v16 v17 v18 v19 v20 v21 (bit cm 32) v26 v27 v28 l C1 F false false v10 v22 0%nat b1 D PL) as (r2 & i2 & d2 & b2 & e2 & E2 & B2).
    destruct (finish cm r2 i2 v6 d2 v13 false v15 v16 v17 v18 v19 v20 v21 (punch_from 0 l v22) (Z.of_nat (Nat.min (0 + length l) 80)) (bit cm 32) v26 v27 v28 z b2 C B2 O) as (r3 & i3 & b3 & e3 & E3).
    do 3 eexists. split; [|split; [|split; [|split]]].
    - unfold write_whole. eapply talk_two; [exact E1| |reflexivity|reflexivity]. eapply talk_two; [exact E2|exact E3|reflexivity|reflexivity].
    - repeat split.
    - reflexivity.
    - reflexivity.
    - reflexivity.
  Qed.
  (** Punching with a feed: the card goes to the stacker, the next one comes. *)
  Lemma write_feed c c2 cs s cm pc l z bi : deck c (c2 :: cs) s -> cs <> [] \/ d_eof s = true -> d_pch_full s = true -> d_pch_col s = 0 -> is_byte (d_data s) -> In cm [129; 161] -> with_parity cm = Ok pc ->
    Forall (fun b => is_byte b /\ odd9 b) l -> odd9 z ->
    exists s' b' es, talk a (write_whole pa pc l z ++ [EFire CbFeed] ++ take_request) s free bi = Ok (s', free, b', [0; 8; 4], es) /\
      deck c2 cs s' /\ d_eof s' = d_eof s /\ d_pch_full s' = true /\ d_pch_card s' = c /\ d_pch_col s' = 0 /\ d_data s' = z /\
      stacked (if bit cm 32 then d_stack1 s' else d_stack0 s') = stacked (if bit cm 32 then d_stack1 s else d_stack0 s) ++ [punch_from 0 l (d_pch_card s)] /\
      (if bit cm 32 then d_stack0 s' else d_stack1 s') = (if bit cm 32 then d_stack0 s else d_stack1 s).
  Proof.
    intros (I1 & I2 & I3 & I4 & I5 & I6 & I7 & I8 & I9 & I10 & I11 & I12 & I13 & I14 & I15) NE PF PC0 D C PC F O.
    pose proof I15 as (KO1 & KO2 & KO3 & KO4 & KO5). assert (PK : is_card (punch_from 0 l (d_pch_card s))) by (apply punch_card; [exact KO5|revert F; apply Forall_impl; intros x [X _]; exact X]). destruct KO5 as [CL CF].
    destruct s as [v0 v1 v2 v3 v4 v5 v6 v7 v8 v9 v10 v11 v12 v13 v14 v15 v16 v17 v18 v19 v20 v21 v22 v23 v24 v25 v26 v27 v28 v29].
    cbn [d_st d_sel d_req d_stk d_disc d_busy d_status d_pend d_rdy d_stop d_rdr_full d_rdr_card d_rdr_col d_feed d_hop_cnt d_eof d_pch_full d_pch_col d_pch_card d_data d_stack0 d_stack1] in *. subst v0 v1 v2 v3 v5 v9 v18 v19 v20 v21 v26 v28 v29 v23 v24.
    assert (C1 : bit cm 1 = true) by (destruct C as [<-|[<-|[]]]; reflexivity). assert (CW : is_write cm) by (destruct C as [<-|[<-|[]]]; cbn; auto).
    destruct (start_write cm pc false false v4 v6 v7 v8 v10 v11 v12 v13 v14 v15 v16 v17 c 0 true (Z.of_nat (length (c2 :: cs))) v22 0 v25 true v27 false bi CW PC) as [b1 E1].
    destruct (gives cm (Z.land v6 64) v13 false v15 v16 v17 c 0 true (Z.of_nat (length (c2 :: cs))) (bit cm 32) true v27 false l C1 F false false v10 v22 0%nat b1 D CL) as (r2 & i2 & d2 & b2 & e2 & E2 & B2).
    set (q := punch_from 0 l v22) in *. set (col := Z.of_nat (Nat.min (0 + length l) 80)) in *.
    destruct (finish_feed cm r2 i2 (Z.land v6 64) d2 v13 false v15 v16 v17 c 0 true (Z.of_nat (length (c2 :: cs))) q col (bit cm 32) true v27 false z b2 C B2 O) as (r3 & i3 & b3 & e3 & E3).
    set (s3 := feed_flags (mkD IDLE false r3 false i3 true (Z.land v6 64) cm false 0 z false true v13 false v15 v16 v17 c 0 true (Z.of_nat (length (c2 :: cs))) q col true (bit cm 32) true v27 false [])).
    assert (OK3 : cards_ok s3) by (repeat (split; [assumption|]); exact PK).
    destruct (feed_next s3 c2 cs OK3 I13 eq_refl) as (s4 & F4 & B4 & OK4 & U4 & H4 & RF4 & RC4 & RL4 & ST4 & RY4 & SE4 & PF4 & PC4 & PP4 & _ & SK4 & SK5).
    assert (RY : d_rdy s4 = true) by (rewrite RY4; change (d_eof s3) with v27; destruct cs; [destruct NE as [NE|NE]; [congruence|rewrite NE; reflexivity]|reflexivity]). rewrite RY in SE4. change (d_sense s3) with (Z.land v6 64) in SE4.
    pose proof (clear_interv v6 false) as CI. cbv iota in CI. rewrite CI in SE4. apply bus_eq in B4. destruct B4 as (B1 & B2' & B3 & B5 & B6 & B7 & B8 & B9 & B10 & B11 & B12 & B13 & B14 & B15 & _).
    assert (F5 : fire (mkD IDLE false r3 false i3 true (Z.land v6 64) cm false 0 z false true v13 false v15 v16 v17 c 0 true (Z.of_nat (length (c2 :: cs))) q col true (bit cm 32) true v27 false [CbFeed]) CbFeed = Ok s4).
    { change (feed_cb (mkD IDLE false r3 false i3 true (Z.land v6 64) cm false 0 z false true v13 false v15 v16 v17 c 0 true (Z.of_nat (length (c2 :: cs))) q col true (bit cm 32) true v27 false []) = Ok s4).
      unfold feed_cb. fold s3. change (d_hop_cnt s3) with (Z.of_nat (length (c2 :: cs))). replace (Z.of_nat (length (c2 :: cs)) =? 0) with false by reflexivity. cbn [andb]. rewrite F4. cbn [bind]. rewrite SE4. reflexivity. }
    destruct (w_byte 4 ltac:(split; [discriminate|reflexivity])) as (w & EW & LW).
    destruct (request a pa A PA s4 b3 w 4 ltac:(rewrite B1; reflexivity) ltac:(rewrite B3; reflexivity) ltac:(rewrite B7; reflexivity) ltac:(rewrite B10; reflexivity) eq_refl ltac:(rewrite B9; reflexivity) EW LW) as [b6 E6].
    do 3 eexists. split; [|split; [|split]].
    - unfold write_whole. rewrite <- !app_assoc. eapply talk_two; [exact E1| |reflexivity|reflexivity]. eapply talk_two; [exact E2| |reflexivity|reflexivity]. rewrite app_assoc. eapply talk_two; [exact E3| |reflexivity|reflexivity].
      cbn [app]. eapply talk_fire; [exact F5|]. exact E6.
    - unfold deck. cbn [d_st d_sel d_req d_stk d_busy d_status d_pend d_rdy d_stop d_rdr_full d_rdr_card d_rdr_col d_feed d_hop_cnt set_st set_sel set_busy set_cmd set_cmd_done set_post set_data_end set_stk set_status set_req set_disc].
      repeat (split; [first [reflexivity|assumption]|]). exact OK4.
    - cbn [d_eof set_st set_sel set_busy set_cmd set_cmd_done set_post set_data_end set_stk set_status set_req set_disc]. exact B14.
    - cbn [d_pch_full d_pch_card d_pch_col d_data d_stack0 d_stack1 set_st set_sel set_busy set_cmd set_cmd_done set_post set_data_end set_stk set_status set_req set_disc].
      split; [exact PF4|]. split; [apply PC4; reflexivity|]. split; [apply PP4; reflexivity|]. split; [exact B11|]. split; [exact SK4|exact SK5].
  Qed.
  (** A byte that needs its parity bit: the cycle after it has no defined result. *)
  Lemma write_ub s cm pc b bi : resting s -> d_pend s = [] -> d_pch_full s = true -> d_pch_col s = 0 -> length (d_pch_card s) = 80%nat -> is_byte (d_data s) -> is_write cm -> with_parity cm = Ok pc ->
    256 <= b -> odd9 b -> talk a (start_io pa pc ++ [Cyc held b; Cyc held b; Cyc o_service b; EFire CbWrite; Cyc held 0; Cyc held 0]) s free bi = UB.
  Proof.
    intros (R1 & R2 & R3 & R4) PE PF PC0 PL D C PC HB O.
    destruct s as [v0 v1 v2 v3 v4 v5 v6 v7 v8 v9 v10 v11 v12 v13 v14 v15 v16 v17 v18 v19 v20 v21 v22 v23 v24 v25 v26 v27 v28 v29]. cbn [d_st d_busy d_status d_stk d_pend d_pch_full d_pch_col d_pch_card d_data] in *. subst v0 v5 v9 v3 v29 v24 v23.
    assert (C1 : bit cm 1 = true) by (destruct C as [<-|[<-|[<-|[<-|[]]]]]; reflexivity).
    destruct (start_write cm pc v1 v2 v4 v6 v7 v8 v10 v11 v12 v13 v14 v15 v16 v17 v18 v19 v20 v21 v22 0 v25 v26 v27 v28 bi C PC) as [b1 E1].
    eapply talk_ub; [exact E1|]. destruct (w_byte _ D) as (w & W & LW). pose proof (odd_good b O) as GB. pose proof (past_parity b HB) as UBP.
    change [Cyc held b; Cyc held b; Cyc o_service b; EFire CbWrite; Cyc held 0; Cyc held 0] with ([Cyc held b; Cyc held b; Cyc o_service b] ++ [EFire CbWrite; Cyc held 0; Cyc held 0]).
    eapply talk_ub. { unfold wr_dev, rd_tags. st r_opr_data. st r_data1. st r_data2_write. apply talk_nil. all: reflexivity. }
    assert (BM : 0 <= b mod 256 < 256) by (apply Z.mod_pos_bound; reflexivity). destruct (ebcdic_inverse (b mod 256) BM) as (h & _ & I1 & _).
    eapply talk_fire. { unfold fire. nrm. unfold write_cb. nrm. cbn [Z.ltb Z.compare]. unfold col, tab. cbn [Z.ltb Z.compare Z.to_nat]. rewrite (nth_error_nth' v22 0) by lia. cbn [bind]. rewrite I1. cbn [bind]. reflexivity. }
    match goal with |- talk _ [?x; ?y] _ _ _ = _ => change [x; y] with ([x] ++ [y]) end. eapply talk_ub. { st r_opr_data. apply talk_nil. all: reflexivity. } cbn [talk]. rewrite r_data1_ub; [reflexivity|reflexivity|reflexivity|reflexivity|reflexivity|exact UBP].
  Qed.
  (** The last card: unit exception, whatever it holds. *)
  Lemma read_sense c c2 cs s cm pc p4 bi : deck c (c2 :: cs) s -> cs <> [] \/ d_eof s = true -> is_read cm -> with_parity cm = Ok pc -> with_parity 4 = Ok p4 ->
    exists s' b' es, talk a (read_whole pa pc ++ sense_whole pa p4) s free bi = Ok (s', free, b', [0; 8; if existsb inv c then 6 else 4; 0; 12], es ++ [if existsb inv c then S_DATCHK else 0]) /\ Forall2 column_byte c es.
  Proof.
    intros D NE C PC P4. destruct (read_one a pa A PA c c2 cs s cm pc bi D NE C PC) as (s1 & b1 & es & E1 & F1 & D1 & _ & _ & _ & SE).
    assert (R : resting s1) by (destruct D1 as (I1 & I2 & I3 & I4 & I5 & _); repeat split; assumption).
    destruct (sense s1 p4 b1 R ltac:(rewrite SE; destruct (existsb inv c); split; try discriminate; reflexivity) P4) as (s2 & b2 & E2 & _). rewrite SE in E2.
    exists s2, b2, es. split; [|exact F1]. eapply talk_two; [exact E1|exact E2|reflexivity|reflexivity].
  Qed.
End Dialogue.
