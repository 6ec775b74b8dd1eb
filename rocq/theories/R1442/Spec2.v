(** What is expected of the card reader and punch: whole commands. *)
From Verif Require Export R1442.Spec.

Definition is_byte (b : Z) : Prop := 0 <= b < 256.
(** *** The device and a channel, as in K1052.Spec *)
Record outs := mkO { o_sel : bool; o_adr : bool; o_cmd : bool; o_srv : bool; o_sup : bool; o_hld : bool }.
(** A cycle of the channel, or a callback. *)
Inductive item := Cyc (o : outs) (bo : Z) | EFire (k : cb).
Definition chan_tags (o : outs) (t : tags) : tags :=
  mkT (o_sel o) (o_adr o) (o_cmd o) (o_srv o) (o_sup o) (o_hld o) true (opri t) (adri t) (stai t) (srvi t) (reqi t).
(** The status bytes are those shown when status-in comes up, the data bytes those shown when service-in comes up. *)
Fixpoint talk (a : Z) (l : list item) (s : dev) (t : tags) (bi : Z) : res (dev * tags * Z * list Z * list Z) :=
  match l with
  | [] => Ok (s, t, bi, [], [])
  | Cyc o bo :: l =>
    let* (s1, t1, b1) := dev_step a s (chan_tags o t) bo bi in
    let* (s2, t2, b2, st, d) := talk a l s1 t1 b1 in
    Ok (s2, t2, b2, (if negb (stai t) && stai t1 then [Z.land b1 255] else []) ++ st,
                    (if negb (srvi t) && srvi t1 then [Z.land b1 255] else []) ++ d)
  | EFire k :: l => let* s := fire s k in talk a l s t bi
  end.
Definition free : tags := mkT false false false false false false true false false false false false.
Definition nothing := mkO false false false false false false.
Definition held := mkO false false false false false true.
Definition o_select := mkO true true false false false true.   (* select-out, address-out *)
Definition o_poll := mkO true false false false false true.    (* select-out *)
Definition o_command := mkO false false true false false true. (* command-out *)
Definition o_service := mkO false false false true false true. (* service-out *)
(** Selection with the address, then the command: the device answers with its first status; the status is taken. *)
Definition ask (pa pc : Z) : list item := [Cyc o_select pa; Cyc held pa; Cyc o_command pc; Cyc held pc].
Definition start_io (pa pc : Z) : list item := ask pa pc ++ [Cyc o_service pc].
(** The ending status is shown and taken, the interface let go. *)
Definition take_end : list item := [Cyc held 0; Cyc held 0; Cyc o_service 0; Cyc nothing 0].
(** The channel answers the request of the device and takes the status. *)
Definition take_request : list item :=
  [Cyc nothing 0; Cyc o_poll 0; Cyc held 0; Cyc o_command 256; Cyc held 0; Cyc o_service 0; Cyc nothing 0].

(** *** Reading *)
Definition column : list item := [EFire CbRead; Cyc held 0; Cyc held 0; Cyc o_service 0].
(** A whole read command, the byte of each column taken in time, then channel end, the feed of the next card, and device end. *)
Definition read_whole (pa pc : Z) : list item :=
  start_io pa pc ++ concat (repeat column 80) ++ [EFire CbRead] ++ take_end ++ [EFire CbFeed] ++ take_request.
(** Nothing is in progress; card [c] is under the brushes and the cards [cs] are in the hopper behind it. *)
Definition deck (c : card) (cs : list card) (s : dev) : Prop :=
  d_st s = IDLE /\ d_sel s = false /\ d_busy s = false /\ d_status s = 0 /\ d_stk s = false /\ d_req s = false /\ d_pend s = [] /\
  d_rdy s = true /\ d_stop s = false /\ d_rdr_full s = true /\ d_rdr_card s = c /\ d_rdr_col s = 0 /\
  unread (d_feed s) = cs /\ d_hop_cnt s = Z.of_nat (length cs) /\ cards_ok s.
(** A column that stands for no character. *)
Definition invalid (h : Z) : Prop := forall x, 0 <= x < 256 -> tab ebcdic_to_hol_table x <> Ok h.
(** The statuses of the reads of a deck whose last card has been announced by the end-of-file key. [bad c]: an invalid column. *)
Definition read_statuses (bad : card -> bool) (cs : list card) : list Z :=
  concat (map (fun c => [0; SNS_CHNEND; if bad c then SNS_DEVEND + SNS_UNITCHK else SNS_DEVEND]) cs).

(** *** The commands *)
(** test I/O, write, read, control, sense; refused otherwise. *)
Inductive kind := Test | Write | Read | Control | Sense | Refused.
Definition kind_of (c : Z) : kind :=
  if c =? 0 then Test
  else if existsb (Z.eqb c) [1; 33; 129; 161] then Write
  else if existsb (Z.eqb c) [2; 34] then Read
  else if existsb (Z.eqb c) [3; 35; 131; 163] then Control
  else if c =? 4 then Sense
  else Refused.
Definition CED := SNS_CHNEND + SNS_DEVEND.
(** The first status: busy commands 0; control without feed is done at once; with feed, channel end; refused commands and
    commands to a device that is not ready, unit check. *)
Definition first_status (c : Z) (s : dev) : Z :=
  match kind_of c with
  | Test => if d_sense s =? 0 then 0 else SNS_UNITCHK
  | Write => if d_pch_full s then 0 else CED + (if Z.land (d_sense s) S_INTERV =? 0 then 0 else SNS_UNITCHK)
  | Read => if d_rdy s then 0 else CED + SNS_UNITCHK
  | Control => if negb (bit c 128) then CED else if d_rdy s then SNS_CHNEND else CED + SNS_UNITCHK
  | Sense => 0
  | Refused => CED + SNS_UNITCHK
  end.
Definition resting (s : dev) : Prop := d_st s = IDLE /\ d_busy s = false /\ d_status s = 0 /\ d_stk s = false.

(** A whole sense command: its one byte is taken. *)
Definition sense_whole (pa pc : Z) : list item := start_io pa pc ++ [Cyc held 0; Cyc held 0; Cyc o_service 0] ++ take_end.

(** *** Punching *)
(** A byte of data (with its parity) answers service-in, and is punched. *)
Definition give (b : Z) : list item := [Cyc held b; Cyc held b; Cyc o_service b; EFire CbWrite].
(** Command-out answers service-in: there is no more data. *)
Definition no_more (z : Z) : list item := [Cyc held 0; Cyc held 0; Cyc o_command z].
Definition write_whole (pa pc : Z) (l : list Z) (z : Z) : list item := start_io pa pc ++ concat (map give l) ++ no_more z ++ take_end.
(** The card with the holes of the bytes [l] added from column [k] on. *)
Fixpoint punch_from (k : nat) (l : list Z) (c : card) : card :=
  match l with
  | [] => c
  | b :: l => punch_from (S k) l (upd c k (Z.lor (nth k c 0) (nth (Z.to_nat b) ebcdic_to_hol_table 0)))
  end.

(** *** Scenarios *)
(** Card [c] under the brushes, the cards [cs] in the hopper, card [p] in the punch, the end-of-file key pressed. *)
Definition loaded (c : card) (cs : list card) (p : card) : dev :=
  mkD IDLE false false false false false 0 0 false 0 0 false false false false (Ctx MAuto cs (length cs) 0 None) init_ctx init_ctx
      c 0 true (Z.of_nat (length cs)) p 0 true false true true false [].
(** "AB"; a card with an invalid column. *)
Definition ab : card := 2304 :: 2176 :: repeat 0 78.
Definition laced : card := 4095 :: repeat 0 79.
