(** Properties C06-C08 of the translation tables. *)
From Verif Require Import Base.Bits Xlat.Tables.

(** *** C06.  Every byte together with its odd_parity entry has an odd number of ones among nine bits. *)
Theorem C06_odd_parity_table :
  forall b, 0 <= b < 256 ->
  exists p, tab odd_parity b = Ok p /\ (p = 0 \/ p = 256) /\ odd_bits 9 (Z.lor p b) = true /\ Z.land (Z.lor p b) 255 = b.
Proof.
  intros b Hb.
  pose proof (sweep 256 (fun b => match tab odd_parity b with
     Ok p => ((p =? 0) || (p =? 256)) && odd_bits 9 (Z.lor p b) && (Z.land (Z.lor p b) 255 =? b) | _ => false end)
     ltac:(vm_compute; reflexivity) b Hb) as H.
  cbn beta in H. destruct (tab odd_parity b) as [p| |]; try discriminate. exists p.
  apply andb_true_iff in H. destruct H as [H H3]. apply andb_true_iff in H. destruct H as [H1 H2].
  apply orb_true_iff in H1. apply Z.eqb_eq in H3. split; [reflexivity|]. split; [|split; auto].
  destruct H1 as [H1|H1]; apply Z.eqb_eq in H1; auto.
Qed.
Print Assumptions C06_odd_parity_table.

(** *** C07.  Seven-track characters: even parity over seven bits, and the BCD table is one to one. *)
Theorem C07_tape_parity_table :
  forall c, 0 <= c < 64 ->
  exists p, tab parity_table c = Ok p /\ (p = 0 \/ p = 64) /\ odd_bits 7 (Z.lor p c) = false /\ Z.land (Z.lor p c) 63 = c.
Proof.
  intros b Hb.
  pose proof (sweep 64 (fun b => match tab parity_table b with
     Ok p => ((p =? 0) || (p =? 64)) && negb (odd_bits 7 (Z.lor p b)) && (Z.land (Z.lor p b) 63 =? b) | _ => false end)
     ltac:(vm_compute; reflexivity) b Hb) as H.
  cbn beta in H. destruct (tab parity_table b) as [p| |]; try discriminate. exists p.
  apply andb_true_iff in H. destruct H as [H H3]. apply andb_true_iff in H. destruct H as [H1 H2].
  apply orb_true_iff in H1. apply Z.eqb_eq in H3. apply negb_true_iff in H2. split; [reflexivity|]. split; [|split; auto].
  destruct H1 as [H1|H1]; apply Z.eqb_eq in H1; auto.
Qed.
Print Assumptions C07_tape_parity_table.

Theorem C07_bcd_to_ebcdic_injective :
  forall a b v, 0 <= a < 64 -> 0 <= b < 64 ->
  tab bcd_to_ebcdic a = Ok v -> tab bcd_to_ebcdic b = Ok v -> a = b.
Proof.
  intros a b v Ha Hb H1 H2.
  pose proof (sweep2 64 64 (fun a b => match tab bcd_to_ebcdic a, tab bcd_to_ebcdic b with
     Ok x, Ok y => negb (x =? y) || (a =? b) | _, _ => false end) ltac:(vm_compute; reflexivity) a b Ha Hb) as H.
  cbn beta in H. rewrite H1, H2, Z.eqb_refl in H. cbn in H. apply Z.eqb_eq in H. exact H.
Qed.
Print Assumptions C07_bcd_to_ebcdic_injective.

(** *** C08.  ASCII to EBCDIC and back, for every printable character: exact for all but three characters,
    '[' (0x5b), ']' (0x5d) and '|' (0x7c), which do not come back. *)
Definition there_and_back (c : Z) : res Z := let* e := tab ascii_to_ebcdic c in tab ebcdic_to_ascii e.

Theorem C08_ascii_ebcdic_round_trip_partial :
  forall c, 32 <= c < 127 -> c <> 91 -> c <> 93 -> c <> 124 -> there_and_back c = Ok c.
Proof.
  intros c H1 H2 H3 H4.
  pose proof (sweep 127 (fun c => (c <? 32) || (c =? 91) || (c =? 93) || (c =? 124) || res_eqb (there_and_back c) c)
    ltac:(vm_compute; reflexivity) c ltac:(lia)) as H. cbn beta in H.
  replace (c <? 32) with false in H by lia. replace (c =? 91) with false in H by lia.
  replace (c =? 93) with false in H by lia. replace (c =? 124) with false in H by lia.
  cbn [orb] in H. apply res_eqb_eq. exact H.
Qed.
Print Assumptions C08_ascii_ebcdic_round_trip_partial.

Theorem C08_brackets_and_bar_refuted :
  there_and_back 91 = Ok 255 /\ there_and_back 93 = Ok 255 /\ there_and_back 124 = Ok 255.
Proof. repeat split; vm_compute; reflexivity. Qed.
Print Assumptions C08_brackets_and_bar_refuted.

(** The hypotheses above are ranges: 'A' is in all of them. *)
Example ranges_met : 0 <= 65 < 256 /\ 32 <= 65 < 127 /\ 0 <= 49 < 64 /\ there_and_back 65 = Ok 65.
Proof. repeat split; try lia. Qed.
