(** The card reader and punch, whole commands: C112 to C116. *)
From Verif Require Import R1442.Spec2 R1442.Proofs R1442.Proofs2 R1442.Proofs3 R1442.Proofs4 R1442.Proofs5 R1442.Proofs6 R1442.Proofs7.

(** C112, as far as it holds: a device at rest answers a command with the first status of the command table, and the sense
    byte says why a command was refused.  Missing: the commands that are multiples of 8 (see below). *)
Theorem C112_partial : forall a pa c pc s bi, is_byte a -> with_parity a = Ok pa -> is_byte c -> with_parity c = Ok pc -> resting s -> c = 0 \/ c mod 8 <> 0 ->
  exists s' t' b', talk a (ask pa pc) s free bi = Ok (s', t', b', [first_status c s], []) /\
    (kind_of c = Refused -> bit (d_sense s') S_CMDREJ = true) /\
    (kind_of c = Read -> d_rdy s = false -> bit (d_sense s') S_INTERV = true) /\
    (kind_of c = Control -> bit c 128 = true -> d_rdy s = false -> bit (d_sense s') S_INTERV = true).
Proof. intros a pa c pc s bi A PA B PC R N. exact (table a pa A PA s c pc bi R B PC N). Qed.
Print Assumptions C112_partial.
Example C112_ex : resting (loaded ab [] ab) /\ first_status 2 (loaded ab [] ab) = 0 /\ first_status 6 (loaded ab [] ab) = 14 /\ first_status 131 (loaded ab [] ab) = 8 /\ with_parity 12 = Ok 268 /\ with_parity 6 = Ok 262.
Proof. repeat split. Qed.
(** C112 fails for the command 08, which is taken as a test I/O instead of being refused. *)
Theorem C112_refuted : exists s s' t' b', resting s /\ kind_of 8 = Refused /\ talk 12 (ask 268 8) s free 0 = Ok (s', t', b', [0], []) /\ d_sense s' = 0.
Proof. exists (loaded ab [] ab). do 3 eexists. split; [repeat split|]. split; [reflexivity|]. split; [vm_compute; reflexivity|reflexivity]. Qed.
Print Assumptions C112_refuted.

(** C113: reading a deck of any length, with the end-of-file key pressed: the bytes of all the cards come in order; channel end
    and device end each time, with unit check if there is an invalid column; and unit exception with the last. *)
Theorem C113 : forall a pa cm pc bad, is_byte a -> with_parity a = Ok pa -> cm = 2 \/ cm = 34 -> with_parity cm = Ok pc ->
  (forall c, is_card c -> (bad c = true <-> Exists invalid c)) ->
  forall cs c s bi, deck c cs s -> d_eof s = true ->
  exists s' b' ess, talk a (concat (repeat (read_whole pa pc) (length (c :: cs)))) s free bi =
      Ok (s', free, b', read_statuses bad (removelast (c :: cs)) ++ [0; SNS_CHNEND; SNS_DEVEND + SNS_UNITEXP], concat ess) /\
    Forall2 (Forall2 column_byte) (c :: cs) ess.
Proof. intros a pa cm pc bad A PA C PC BAD cs c s bi D E. exact (read_all a pa A PA bad cm pc BAD C PC cs c s bi D E). Qed.
Print Assumptions C113.
Example C113_ex : deck ab [laced; blank] (loaded ab [laced; blank] ab) /\ d_eof (loaded ab [laced; blank] ab) = true /\
  (forall c, is_card c -> (existsb inv c = true <-> Exists invalid c)) /\ read_statuses (existsb inv) (removelast [ab; laced; blank]) = [0; 8; 4; 0; 8; 6].
Proof.
  split; [apply loaded_deck; [apply card_by; reflexivity|apply card_by; reflexivity|repeat (constructor; [apply card_by; reflexivity|]); constructor]|].
  split; [reflexivity|]. split; [exact inv_card|vm_compute; reflexivity].
Qed.
(** One read with more cards behind: the card goes on to the punch and the next one comes, whether or not the key is pressed. *)
Theorem C113_one : forall a pa cm pc c c2 cs s bi, is_byte a -> with_parity a = Ok pa -> cm = 2 \/ cm = 34 -> with_parity cm = Ok pc ->
  deck c (c2 :: cs) s -> cs <> [] \/ d_eof s = true ->
  exists s' b' st es, talk a (read_whole pa pc) s free bi = Ok (s', free, b', st, es) /\ Forall2 column_byte c es /\
    deck c2 cs s' /\ d_eof s' = d_eof s /\ d_pch_full s' = true /\ d_pch_card s' = c.
Proof.
  intros a pa cm pc c c2 cs s bi A PA C PC D NE. destruct (read_one a pa A PA c c2 cs s cm pc bi D NE C PC) as (s' & b' & es & E & F & D' & H1 & H2 & H3 & _).
  exists s', b'. do 2 eexists. split; [exact E|]. split; [exact F|]. split; [exact D'|]. split; [exact H1|]. split; [exact H2|exact H3].
Qed.
Print Assumptions C113_one.

(** C114, as far as it holds: after a read with cards behind, device end has unit check exactly if there is an invalid column,
    and the sense byte is then data check, otherwise zero.  Missing: the last card (see below). *)
Theorem C114_partial : forall a pa cm pc p4 bad c c2 cs s bi, is_byte a -> with_parity a = Ok pa -> cm = 2 \/ cm = 34 -> with_parity cm = Ok pc -> with_parity 4 = Ok p4 ->
  (bad = true <-> Exists invalid c) -> deck c (c2 :: cs) s -> cs <> [] \/ d_eof s = true ->
  exists s' b' es, talk a (read_whole pa pc ++ sense_whole pa p4) s free bi =
      Ok (s', free, b', [0; SNS_CHNEND; if bad then SNS_DEVEND + SNS_UNITCHK else SNS_DEVEND; 0; CED], es ++ [if bad then S_DATCHK else 0]) /\
    Forall2 column_byte c es.
Proof.
  intros a pa cm pc p4 bad c c2 cs s bi A PA C PC P4 BAD D NE. destruct (read_sense a pa A PA c c2 cs s cm pc p4 bi D NE C PC P4) as (s' & b' & es & E & F).
  assert (IC : is_card c) by (destruct D as (_ & _ & _ & _ & _ & _ & _ & _ & _ & _ & D & _ & _ & _ & K); destruct K as (_ & _ & _ & K & _); rewrite D in K; exact K).
  assert (B : existsb inv c = bad). { pose proof (inv_card c IC) as I1. destruct (existsb inv c), bad; try reflexivity; [symmetry; apply BAD, I1; reflexivity|apply I1, BAD; reflexivity]. }
  rewrite B in E. exists s', b', es. split; [destruct bad; exact E|exact F].
Qed.
Print Assumptions C114_partial.
Example C114_ex : deck laced [ab] (loaded laced [ab] ab) /\ Exists invalid laced /\ with_parity 4 = Ok 4.
Proof.
  split; [apply loaded_deck; [apply card_by; reflexivity|apply card_by; reflexivity|repeat (constructor; [apply card_by; reflexivity|]); constructor]|].
  split; [apply inv_card; [apply card_by; reflexivity|reflexivity]|reflexivity].
Qed.
(** C114 fails for the last card: no unit check is ever shown, whatever the card holds. *)
Theorem C114_refuted : forall a pa cm pc c s bi, is_byte a -> with_parity a = Ok pa -> cm = 2 \/ cm = 34 -> with_parity cm = Ok pc -> deck c [] s -> d_eof s = true -> Exists invalid c ->
  exists s' b' es, talk a (read_whole pa pc) s free bi = Ok (s', free, b', [0; SNS_CHNEND; SNS_DEVEND + SNS_UNITEXP], es).
Proof. intros a pa cm pc c s bi A PA C PC D E _. destruct (read_last a pa A PA c s cm pc bi D E C PC) as (s' & b' & es & T & _). exists s', b', es. exact T. Qed.
Print Assumptions C114_refuted.
Example C114_refuted_ex : deck laced [] (loaded laced [] ab) /\ Exists invalid laced.
Proof. split; [apply loaded_deck; [apply card_by; reflexivity|apply card_by; reflexivity|constructor]|apply inv_card; [apply card_by; reflexivity|reflexivity]]. Qed.

(** C115: sense sends the sense byte, then channel end and device end, and leaves the sense byte as it is. *)
Theorem C115 : forall a pa p4 s bi, is_byte a -> with_parity a = Ok pa -> with_parity 4 = Ok p4 -> resting s -> is_byte (d_sense s) ->
  exists s' b', talk a (sense_whole pa p4) s free bi = Ok (s', free, b', [0; CED], [d_sense s]) /\ resting s' /\ d_sense s' = d_sense s.
Proof. intros a pa p4 s bi A PA P4 R B. exact (sense a pa A PA s p4 bi R B P4). Qed.
Print Assumptions C115.
Example C115_ex : resting (or_sense 64 init_dev) /\ d_sense (or_sense 64 init_dev) = 64 /\ is_byte 64.
Proof. repeat split; discriminate. Qed.

(** C116, as far as it holds: a write punches the bytes sent into the card in the punch, over the holes that are there, from
    column 1 on and at most to column 80; without a feed the command ends with channel end and device end.  Missing: bytes
    that need their parity bit (see below). *)
Theorem C116_stay_partial : forall a pa cm pc l z s bi, is_byte a -> with_parity a = Ok pa -> cm = 1 \/ cm = 33 -> with_parity cm = Ok pc ->
  resting s -> d_pend s = [] -> d_pch_full s = true -> d_pch_col s = 0 -> is_card (d_pch_card s) -> is_byte (d_data s) ->
  Forall (fun b => is_byte b /\ odd9 b) l -> odd9 z ->
  exists s' b' es, talk a (write_whole pa pc l z) s free bi = Ok (s', free, b', [0; CED + if Z.land (d_sense s) S_INTERV =? 0 then 0 else SNS_UNITCHK], es) /\
    resting s' /\ d_pch_full s' = true /\ d_pch_card s' = punch_from 0 l (d_pch_card s) /\ d_stk_sel s' = (cm =? 33).
Proof.
  intros a pa cm pc l z s bi A PA C PC R PE PF P0 K D F O. destruct (write_stay a pa A PA s cm pc l z bi R PE PF P0 (proj1 K) D) as (s' & b' & es & E & H1 & H2 & H3 & H4); [destruct C; subst; cbn; auto|exact PC|exact F|exact O|].
  exists s', b', es. split; [exact E|]. split; [exact H1|]. split; [exact H2|]. split; [exact H3|]. rewrite H4. destruct C; subst; reflexivity.
Qed.
Print Assumptions C116_stay_partial.
Example C116_stay_ex : let s := loaded laced [ab] ab in resting s /\ d_pend s = [] /\ d_pch_full s = true /\ d_pch_col s = 0 /\ is_card (d_pch_card s) /\ is_byte (d_data s) /\
  (is_byte 199 /\ odd9 199) /\ odd9 256 /\ punch_from 0 [199; 200] (d_pch_card s) = Z.lor 2304 2052 :: Z.lor 2176 2050 :: repeat 0 78.
Proof. cbv zeta. split; [repeat split|]. split; [reflexivity|]. split; [reflexivity|]. split; [reflexivity|]. split; [apply card_by; reflexivity|]. repeat split; discriminate. Qed.
(** ... and with a feed the card goes to the stacker selected, the other stacker is left alone, the card under the brushes
    goes on to the punch and the next one comes. *)
Theorem C116_feed_partial : forall a pa cm pc l z c c2 cs s bi, is_byte a -> with_parity a = Ok pa -> cm = 129 \/ cm = 161 -> with_parity cm = Ok pc ->
  deck c (c2 :: cs) s -> cs <> [] \/ d_eof s = true -> d_pch_full s = true -> d_pch_col s = 0 -> is_byte (d_data s) ->
  Forall (fun b => is_byte b /\ odd9 b) l -> odd9 z ->
  exists s' b' es, talk a (write_whole pa pc l z ++ [EFire CbFeed] ++ take_request) s free bi = Ok (s', free, b', [0; SNS_CHNEND; SNS_DEVEND], es) /\
    deck c2 cs s' /\ d_eof s' = d_eof s /\ d_pch_full s' = true /\ d_pch_card s' = c /\ d_pch_col s' = 0 /\ d_data s' = z /\
    stacked (if cm =? 161 then d_stack1 s' else d_stack0 s') = stacked (if cm =? 161 then d_stack1 s else d_stack0 s) ++ [punch_from 0 l (d_pch_card s)] /\
    (if cm =? 161 then d_stack0 s' else d_stack1 s') = (if cm =? 161 then d_stack0 s else d_stack1 s).
Proof.
  intros a pa cm pc l z c c2 cs s bi A PA C PC D NE PF P0 DB F O. assert (I : In cm [129; 161]) by (destruct C; subst; cbn; auto). assert (B : bit cm 32 = (cm =? 161)) by (destruct C; subst; reflexivity).
  destruct (write_feed a pa A PA c c2 cs s cm pc l z bi D NE PF P0 DB I PC F O) as (s' & b' & es & H). rewrite B in H. exists s', b', es. exact H.
Qed.
Print Assumptions C116_feed_partial.
Example C116_feed_ex : deck laced [ab; blank] (loaded laced [ab; blank] ab) /\ with_parity 129 = Ok 385 /\ with_parity 161 = Ok 161.
Proof. split; [apply loaded_deck; [apply card_by; reflexivity|apply card_by; reflexivity|repeat (constructor; [apply card_by; reflexivity|]); constructor]|repeat split]. Qed.
(** C116 fails for a byte that is sent with its parity bit set: the byte is kept with that bit, and the device looks it up
    beyond the end of the parity table when it asks for the next one. *)
Theorem C116_refuted : forall a pa cm pc b s bi, is_byte a -> with_parity a = Ok pa -> In cm [1; 33; 129; 161] -> with_parity cm = Ok pc ->
  resting s -> d_pend s = [] -> d_pch_full s = true -> d_pch_col s = 0 -> is_card (d_pch_card s) -> is_byte (d_data s) -> odd9 b -> 256 <= b ->
  talk a (start_io pa pc ++ give b ++ [Cyc held 0; Cyc held 0]) s free bi = UB.
Proof. intros a pa cm pc b s bi A PA C PC R PE PF P0 K D O H. exact (write_ub a pa A PA s cm pc b bi R PE PF P0 (proj1 K) D C PC H O). Qed.
Print Assumptions C116_refuted.
Example C116_refuted_ex : odd9 (256 + 240) /\ is_byte 240 /\ with_parity 240 = Ok (256 + 240).
Proof. repeat split; discriminate. Qed.
(** ... and for the write after one that was ended with the usual zero byte: its parity bit is kept as well. *)
Theorem C116_again_refuted : exists s1 s2 b1 st es, deck ab [blank; blank] s1 /\ d_pch_full s1 = true /\ with_parity 0 = Ok 256 /\
  talk 12 (write_whole 268 385 [] 256 ++ [EFire CbFeed] ++ take_request) s1 free 0 = Ok (s2, free, b1, st, es) /\
  talk 12 (start_io 268 385 ++ [Cyc held 0; Cyc held 0]) s2 free b1 = UB.
Proof.
  exists (loaded ab [blank; blank] laced). do 4 eexists. split; [apply loaded_deck; [apply card_by; reflexivity|apply card_by; reflexivity|repeat (constructor; [apply card_by; reflexivity|]); constructor]|].
  split; [reflexivity|]. split; [reflexivity|]. split; vm_compute; reflexivity.
Qed.
Print Assumptions C116_again_refuted.
