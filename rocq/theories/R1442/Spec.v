(** What is expected of the card reader and punch. *)
From Verif Require Export R1442.Model Card.Tables Card.Spec.

(** Whatever can happen to the device: a cycle of the channel, a callback, a key.  The tags and bytes the channel shows are
    arbitrary. *)
Inductive act := Chan (t : tags) (bo bi : Z) | Fire (k : cb) | Key (k : key).
Definition astep (a : Z) (s : dev) (x : act) : res dev :=
  match x with
  | Chan t bo bi => let* r := dev_step a s t bo bi in Ok (fst (fst r))
  | Fire k => fire s k
  | Key k => do_key s k
  end.
Fixpoint run (a : Z) (s : dev) (l : list act) : res dev :=
  match l with [] => Ok s | x :: r => let* s' := astep a s x in run a s' r end.

(** *** Selection *)
Definition resetting (t : tags) : Prop := opro t = false /\ supo t = false.
(** The channel selects the device: select-out is up on a free interface, with the address of the device, or without any
    address while the device is asking for service. *)
Definition selecting (a : Z) (s : dev) (t : tags) (bo : Z) : Prop :=
  opro t = true /\ opri t = false /\ selo t = true /\
  ((adro t = true /\ Z.land bo 255 = Z.land a 255) \/ (adro t = false /\ supo t = false /\ (d_req s = true \/ d_stk s = true))).
(** The device takes part: it raises a tag (except request-in), changes bus-in, or does not pass on select-out. *)
Definition drives (t : tags) (bi : Z) (t' : tags) (bi' : Z) : Prop :=
  (opri t = false /\ opri t' = true) \/ (adri t = false /\ adri t' = true) \/ (stai t = false /\ stai t' = true) \/
  (srvi t = false /\ srvi t' = true) \/ bi' <> bi \/ selo t' <> selo t.
(** The history [l] contains a selection, and since then the device was neither reset nor back in the idle state. *)
Definition owned (a : Z) (s : dev) (l : list act) : Prop :=
  exists pre t bo bi post s0, l = pre ++ Chan t bo bi :: post /\ run a s pre = Ok s0 /\ selecting a s0 t bo /\
    (forall t' bo' bi', In (Chan t' bo' bi') post -> ~ resetting t') /\
    (forall p q s1, post = p ++ q -> run a s (pre ++ Chan t bo bi :: p) = Ok s1 -> d_st s1 <> IDLE).

(** *** Parity *)
Definition odd9 (b : Z) : Prop := 0 <= b < 512 /\ odd_bits 9 b = true.
(** The channel sends no commands with an odd code (the write and control commands). *)
Definition no_writes (l : list act) : Prop := forall t bo bi, In (Chan t bo bi) l -> cmdo t = true -> Z.odd bo = false.

(** *** Cards *)
Definition punched (c c' : card) : Prop := Forall2 (fun x y => Z.land x y = x) c c'.
(** The cards on their way, the foremost first. *)
Definition path (s : dev) : list card :=
  (if d_pch_full s then [d_pch_card s] else []) ++ (if d_rdr_full s then [d_rdr_card s] else []) ++ unread (d_feed s).
Definition stacked (c : Card.Model.ctx) : list card := firstn (c_cards c) (c_images c).
(** Cards that have left the punch station, with the stacker they went to. *)
Definition to_stacker (k : bool) (out : list (bool * card)) : list card := map snd (filter (fun x => Bool.eqb (fst x) k) out).
Definition ctx_good (c : Card.Model.ctx) : Prop := ctx_ok c /\ Forall is_card (unread c).
Definition cards_ok (s : dev) : Prop :=
  ctx_good (d_feed s) /\ ctx_good (d_stack0 s) /\ ctx_good (d_stack1 s) /\ is_card (d_rdr_card s) /\ is_card (d_pch_card s).
(** Everything except the keys that put cards in or take cards out. *)
Definition keeps_cards (x : act) : Prop :=
  match x with Key (KEmpty | KLoad _ _ _ | KBlank _ | KEmpty1 | KEmpty2) => False | _ => True end.

(** *** After a reset *)
(** Channel cycles that do not address the device, and keys; no callbacks. *)
Definition unaddressed (a : Z) (x : act) : Prop :=
  match x with
  | Chan t bo _ => ~ (selo t = true /\ adro t = true /\ Z.land bo 255 = Z.land a 255)
  | Fire _ => False
  | Key _ => True
  end.

(** *** Tags *)
(** The device alone on the interface: what it leaves on the tags to the channel is there in the next cycle.  [hold]: whether
    the channel may raise hold-out (a selector channel), or reset the device in the middle of a busy sequence. *)
Definition in_tags (t : tags) := (opri t, adri t, stai t, srvi t).
Inductive conn (hold : Prop) (a : Z) : dev -> tags -> Prop :=
| conn_init t : in_tags t = (false, false, false, false) -> conn hold a init_dev t
| conn_chan s t t1 bo bi s' t' bi' : conn hold a s t -> in_tags t1 = in_tags t ->
    hold \/ (hldo t1 = false /\ (resetting t1 -> d_st s <> BUSY)) ->
    dev_step a s t1 bo bi = Ok (s', t', bi') -> conn hold a s' t'
| conn_fire s t k s' : conn hold a s t -> fire s k = Ok s' -> conn hold a s' t
| conn_key s t k s' : conn hold a s t -> do_key s k = Ok s' -> conn hold a s' t.
(** At most one of address-in, status-in and service-in is up, and only with operational-in, except for the status-in of the
    busy sequence. *)
Definition tags_ok (s : dev) (t : tags) : Prop :=
  (adri t = true -> opri t = true /\ stai t = false /\ srvi t = false) /\
  (srvi t = true -> opri t = true /\ stai t = false /\ adri t = false) /\
  (stai t = true -> (opri t = true \/ d_st s = BUSY) /\ adri t = false /\ srvi t = false).

(** *** Reading a card *)
(** The bytes the device shows with service-in, and the status bytes it shows with status-in, while things happen to it. *)
Fixpoint seen (a : Z) (s : dev) (l : list act) : res (dev * list Z * list Z) :=
  match l with
  | [] => Ok (s, [], [])
  | x :: r =>
    let* (s1, d, st) :=
      match x with
      | Chan t bo bi =>
        let* (s1, t', b) := dev_step a s t bo bi in
        Ok (s1, if negb (srvi t) && srvi t' then [Z.land b 255] else [], if negb (stai t) && stai t' then [Z.land b 255] else [])
      | _ => let* s1 := astep a s x in Ok (s1, [], [])
      end in
    let* (s2, ds, sts) := seen a s1 r in
    Ok (s2, d ++ ds, st ++ sts)
  end.
Definition out_tags selo adro cmdo srvo := mkT selo adro cmdo srvo false true true.
(** The channel selects the device with address byte [pa], gives it the command [cmd], both with parity, and takes the
    initial status. *)
Definition begin_op (pa cmd : Z) : list act :=
  [Chan (out_tags true true false false false false false false false) pa 0;
   Chan (out_tags true false false false true false false false false) 0 0;
   Chan (out_tags false false true false true true false false false) cmd 0;
   Chan (out_tags false false false false true false false false false) 0 0;
   Chan (out_tags false false false true true false true false false) 0 0].
(** A column comes under the brushes, and the channel takes the byte with service-out. *)
Definition read_col : list act :=
  [Fire CbRead;
   Chan (out_tags false false false false true false false false false) 0 0;
   Chan (out_tags false false false false true false false false false) 0 0;
   Chan (out_tags false false false true true false false true false) 0 0].
(** The card has passed; the device shows its status. *)
Definition end_op : list act :=
  [Fire CbRead;
   Chan (out_tags false false false false true false false false false) 0 0;
   Chan (out_tags false false false false true false false false false) 0 0].
(** The byte a column stands for; zero if there is none. *)
Definition column_byte (h e : Z) : Prop :=
  (0 <= e < 256 /\ tab ebcdic_to_hol_table e = Ok h) \/ (e = 0 /\ forall x, 0 <= x < 256 -> tab ebcdic_to_hol_table x <> Ok h).

(** *** Scenarios *)
(** The channel takes the status of device 0c with test I/O. *)
Definition clear_status : list act := begin_op 268 256 ++ [Chan (out_tags false false false false false false false false false) 0 0].
(** Two cards put in, the first fed to the reader, and the device end taken. *)
Definition two_cards : list act := [Key (KBlank 2); Key KStart] ++ clear_status.
(** A card in the punch, write-and-feed (81) to device 0c, and the byte 00 sent with its parity bit. *)
Definition punch_zero : list act :=
  [Key (KBlank 3); Key KStart; Key KNpro] ++ clear_status ++ begin_op 268 385 ++
  [Chan (out_tags false false false false true false false false false) 0 0;
   Chan (out_tags false false false false true false false false false) 0 0;
   Chan (out_tags false false false true true false false true false) 256 0;
   Fire CbWrite;
   Chan (out_tags false false false false true false false false false) 0 0].
(** Nothing selected, nothing sent; operational-out up or down. *)
Definition quiet_tags (op : bool) : tags := mkT false false false false false false op false false false false false.
(** Test I/O, and its status refused with command-out. *)
Definition refused : list act :=
  [Chan (out_tags true true false false false false false false false) 268 0;
   Chan (out_tags true false false false true false false false false) 0 0;
   Chan (out_tags false false true false true true false false false) 256 0;
   Chan (out_tags false false false false true false false false false) 0 0;
   Chan (out_tags false false true false true false true false false) 0 0].
(** What the device leaves on the tags to the channel is there in the next cycle. *)
Definition carry (t t1 : tags) : tags :=
  mkT (selo t1) (adro t1) (cmdo t1) (srvo t1) (supo t1) (hldo t1) (opro t1) (opri t) (adri t) (stai t) (srvi t) (reqi t1).
Fixpoint link (a : Z) (s : dev) (t : tags) (l : list act) : res (dev * tags) :=
  match l with
  | [] => Ok (s, t)
  | Chan t1 bo bi :: r => let* (s', t', _) := dev_step a s (carry t t1) bo bi in link a s' t' r
  | Fire k :: r => let* s' := fire s k in link a s' t r
  | Key k :: r => let* s' := do_key s k in link a s' t r
  end.
(** A read on a selector channel (hold-out up throughout), stopped after one byte, up to the device end. *)
Definition held_read : list act :=
  two_cards ++ begin_op 268 2 ++
  [Fire CbRead;
   Chan (out_tags false false false false false false false false false) 0 0;
   Chan (out_tags false false false false false false false false false) 0 0;
   Chan (out_tags false false true false false false false false false) 0 0;
   Chan (out_tags false false false false false false false false false) 0 0;
   Chan (out_tags false false false false false false false false false) 0 0;
   Chan (out_tags false false false true false false false false false) 0 0;
   Chan (out_tags false false false false false false false false false) 0 0;
   Fire CbFeed;
   Chan (out_tags false false false false false false false false false) 0 0;
   Chan (out_tags false false false false false false false false false) 0 0].
