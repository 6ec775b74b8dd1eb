(** What is expected of the console. *)
From Verif Require Export K1052.Model.

(** Whatever can happen: a cycle of the channel, a callback, a pass of the thread, a call from the 2030. *)
Inductive act := Chan (t : tags) (bo bi : Z) | Poll | Send | Net (conn : bool) (inp : option (list Z)) | Func (tin : Z) | In | Out (ch : Z).
Definition astep (a : Z) (s : dev) (x : act) : res dev :=
  match x with
  | Chan t bo bi => let* r := dev_step a s t bo bi in Ok (fst (fst r))
  | Poll => if c_poll s then poll_cb s else Ok s
  | Send => match c_pend s with O => Ok s | S n => send_cb (set_pend n s) end
  | Net conn inp => Ok (net conn inp s)
  | Func tin => Ok (fst (func s tin))
  | In => let* r := in_char s in Ok (fst r)
  | Out ch => out_char ch s
  end.
Fixpoint run (a : Z) (s : dev) (l : list act) : res dev :=
  match l with [] => Ok s | x :: r => let* s' := astep a s x in run a s' r end.
Definition is_byte (b : Z) : Prop := 0 <= b < 256.
(** What is received are bytes. *)
Definition byte_input (x : act) : Prop := match x with Net _ (Some l) => Forall is_byte l | _ => True end.

(** *** The keyboard *)
(** The characters typed and not yet taken, the oldest first. *)
Definition queue (s : dev) : list Z := map (fun k => nth (Z.to_nat (Z.land (c_optr s + Z.of_nat k) 255)) (c_keys s) 0) (seq 0 (Z.to_nat (c_ilen s))).
(** The queue holds 256 characters; the pointers agree with its length. *)
Definition queue_ok (s : dev) : Prop :=
  length (c_keys s) = 256%nat /\ 0 <= c_optr s < 256 /\ 0 <= c_ilen s <= 256 /\ c_iptr s = (c_optr s + c_ilen s) mod 256.
(** A stream from the terminal is a sequence of: a character; a doubled 255, which stands for that character; a break; the
    offer or refusal of an option. *)
Inductive unit_ := Ch (c : Z) | Iac | Brk | Opt (v o : Z).
Definition bytes_of (u : unit_) : list Z :=
  match u with Ch c => [c] | Iac => [255; 255] | Brk => [255; 243] | Opt v o => [255; v; o] end.
Definition chars_of (u : unit_) : list Z := match u with Ch c => [c] | Iac => [255] | _ => [] end.
Definition unit_ok (u : unit_) : Prop := match u with Ch c => 0 <= c < 255 | Opt v o => 251 <= v <= 254 /\ is_byte o | _ => True end.
(** Keys without a character: form feed, escape (attention), control-C (cancel), return (end of block). *)
Definition control (c : Z) : bool := (c =? 12) || (c =? 27) || (c =? 3) || (c =? 13).
Definition typed (us : list unit_) : list Z := filter (fun c => negb (control c)) (concat (map chars_of us)).
(** What a key stands for: its EBCDIC code. *)
Definition code (c : Z) : Z := nth (Z.to_nat c) ascii_to_ebcdic 0.
(** Telnet (RFC 854) has also subnegotiation: 255 250 ... 255 240. *)
Inductive unit_sub := U (u : unit_) | Sub (l : list Z).
Definition sub_bytes (u : unit_sub) : list Z := match u with U u => bytes_of u | Sub l => [255; 250] ++ l ++ [255; 240] end.
Definition sub_chars (u : unit_sub) : list Z := match u with U u => chars_of u | Sub _ => [] end.
Definition sub_ok (u : unit_sub) : Prop := match u with U u => unit_ok u | Sub l => Forall (fun b => 0 <= b < 255) l end.

(** *** On the interface *)
Definition resetting (t : tags) : Prop := opro t = false /\ supo t = false.
(** The channel selects the console by its address, or polls it while it has a request. *)
Definition addressing (a : Z) (t : tags) (bo : Z) : Prop := opro t = true /\ selo t = true /\ adro t = true /\ opri t = false /\ Z.land bo 255 = a.
Definition polling (s : dev) (t : tags) : Prop :=
  opro t = true /\ selo t = true /\ adro t = false /\ supo t = false /\ opri t = false /\ (c_req s = true \/ c_stk s = true).
(** The console takes part: it raises a tag (except request-in), changes bus-in, or does not pass on select-out. *)
Definition drives (t : tags) (bi : Z) (t' : tags) (bi' : Z) : Prop :=
  (opri t = false /\ opri t' = true) \/ (adri t = false /\ adri t' = true) \/ (stai t = false /\ stai t' = true) \/
  (srvi t = false /\ srvi t' = true) \/ bi' <> bi \/ selo t' <> selo t.
Definition odd9 (b : Z) : Prop := 0 <= b < 512 /\ odd_bits 9 b = true.
(** A cycle not defined by C: a byte kept with its parity bit goes to the bus. *)
Definition undefined_cycle (s : dev) (t : tags) : Prop :=
  ~ resetting t /\ ((c_st s = DATA_1 /\ srvo t = false /\ supo t = false) \/ c_st s = DATA_2) /\ ~ is_byte (c_data s).
(** Taking a character that is not ASCII is not defined either. *)
Definition undefined_take (s : dev) : Prop := c_iflg s = true /\ match queue s with [] => False | c :: _ => ~ 0 <= c < 128 end.
Definition undefined_act (s : dev) (x : act) : Prop :=
  match x with
  | Chan t _ _ => undefined_cycle s t
  | Poll => c_poll s = true /\ c_cons s = true /\ bit (c_cmd s) 1 = false /\ undefined_take s
  | In => undefined_take s
  | _ => False
  end.

(** *** Whole commands: the console and a channel *)
Record outs := mkO { o_sel : bool; o_adr : bool; o_cmd : bool; o_srv : bool; o_sup : bool; o_hld : bool }.
(** A cycle of the channel, a callback, or a pass of the thread (nobody new connects). *)
Inductive item := Cyc (o : outs) (bo : Z) | EPoll | ESend | ENet (inp : option (list Z)).
Definition chan_tags (o : outs) (t : tags) : tags :=
  mkT (o_sel o) (o_adr o) (o_cmd o) (o_srv o) (o_sup o) (o_hld o) true (opri t) (adri t) (stai t) (srvi t) (reqi t).
Definition event (x : item) : act := match x with EPoll => Poll | ESend => Send | ENet i => Net false i | Cyc _ _ => Poll end.
(** The status bytes are those shown when status-in comes up, the data bytes those shown when service-in comes up. *)
Fixpoint talk (a : Z) (l : list item) (s : dev) (t : tags) (bi : Z) : res (dev * tags * Z * list Z * list Z) :=
  match l with
  | [] => Ok (s, t, bi, [], [])
  | Cyc o bo :: l =>
    let* (s1, t1, b1) := dev_step a s (chan_tags o t) bo bi in
    let* (s2, t2, b2, st, d) := talk a l s1 t1 b1 in
    Ok (s2, t2, b2, (if negb (stai t) && stai t1 then [Z.land b1 255] else []) ++ st,
                    (if negb (srvi t) && srvi t1 then [Z.land b1 255] else []) ++ d)
  | x :: l => let* s := astep a s (event x) in talk a l s t bi
  end.
Definition free : tags := mkT false false false false false false true false false false false false.
Definition nothing := mkO false false false false false false.
Definition held := mkO false false false false false true.
Definition o_select := mkO true true false false false true.   (* select-out, address-out *)
Definition o_poll := mkO true false false false false true.    (* select-out *)
Definition o_command := mkO false false true false false true. (* command-out *)
Definition o_service := mkO false false false true false true. (* service-out *)
(** Selection with the address, then the command: the console answers with its first status; the status is taken. *)
Definition ask (pa pc : Z) : list item := [Cyc o_select pa; Cyc held pa; Cyc o_command pc; Cyc held pc].
Definition start_io (pa pc : Z) : list item := ask pa pc ++ [Cyc o_service pc].
(** A byte of data (with its parity) answers service-in; then the console prints it and the thread sends it. *)
Definition give (b : Z) : list item := [Cyc held b; Cyc held b; Cyc o_service b; Cyc held b; ESend; ENet None].
Definition give_all (l : list Z) : list item := concat (map give l).
(** Command-out answers service-in: there is no more data. *)
Definition no_more : list item := [Cyc held 0; Cyc held 0; Cyc o_command 0; Cyc held 0].
(** The ending status is shown and taken, the interface let go. *)
Definition take_end : list item := [Cyc held 0; Cyc o_service 0; Cyc nothing 0].
Definition write_text (pa pc : Z) (l : list Z) : list item := start_io pa pc ++ give_all l ++ no_more ++ take_end ++ [ENet None].
(** A key is pressed, noticed, and its byte taken by the channel. *)
Definition key_taken (k : Z) : list item := [ENet (Some [k]); EPoll; Cyc held 0; Cyc held 0; Cyc o_service 0; Cyc held 0].
Definition read_line (pa pc : Z) (l : list Z) : list item :=
  start_io pa pc ++ concat (map key_taken l) ++ [ENet (Some [13]); EPoll; Cyc held 0] ++ take_end.
(** The console waits for work, somebody is connected. *)
Definition idle (s : dev) : Prop :=
  c_st s = IDLE /\ c_sel s = false /\ c_bsy s = false /\ c_stk s = false /\ c_status s = 0 /\ c_attn s = false /\ c_cons s = true /\
  c_oflg s = false /\ c_ocr s = false.
(** Nothing is left of earlier writes. *)
Definition clean (s : dev) : Prop := c_pend s = O /\ is_byte (c_data s).
Definition with_parities (l pl : list Z) : Prop := Forall2 (fun b pb => is_byte b /\ with_parity b = Ok pb) l pl.
(** What is sent for a byte written. *)
Definition shown (b : Z) : list Z := let c := nth (Z.to_nat b) ebcdic_to_ascii 0 in c :: if c =? 13 then [10] else [].
Definition WRITE := 1. Definition WRITE_ACR := 9. Definition READ := 10. Definition NOP := 3. Definition SENSE := 4.

(** Attention: the key is pressed, noticed, and the channel answers the request. *)
Definition take_attention : list item := [ENet (Some [27]); EPoll; Cyc nothing 0; Cyc o_poll 0; Cyc held 0; Cyc o_command 256; Cyc held 0; Cyc o_service 0; Cyc nothing 0].
(** The console has nothing to report. *)
Definition quiet (s : dev) : Prop :=
  c_cmd s = 0 /\ c_home s = false /\ c_ilen s = 0 /\ c_cancel s = false /\ c_eob s = false /\ c_req s = false.
(** The first status for each command. *)
Definition known (c : Z) : bool := (c =? WRITE) || (c =? WRITE_ACR) || (c =? READ) || (c =? SENSE).
Definition first_status (c : Z) : Z := if (c =? 0) || known c then 0 else if c =? NOP then 12 else 14.
(** No reset, and no call from the 2030. *)
Definition plain_act (x : act) : Prop := match x with Chan t _ _ => ~ resetting t | Poll | Send | Net _ _ => True | _ => False end.
(** The same, and nobody types. *)
Definition untouched_act (x : act) : Prop := match x with Chan t _ _ => ~ resetting t | Poll | Send => True | Net _ i => i = None | _ => False end.

(** *** The keyboard in use: keys arrive, characters are taken *)
Inductive kact := KType (us : list unit_) | KTake.
Fixpoint session (l : list kact) (s : dev) : res (dev * list Z) :=
  match l with
  | [] => Ok (s, [])
  | KType us :: l => session l (net false (Some (concat (map bytes_of us))) s)
  | KTake :: l =>
    let* (s, x) := in_char s in
    let* (s, o) := session l s in
    Ok (s, match x with Some w => Z.land w 255 :: o | None => o end)
  end.
Definition all_typed (l : list kact) : list Z := concat (map (fun x => match x with KType us => typed us | KTake => [] end) l).
(** Nothing but keys and options arrives, something each time; the codes are ASCII. *)
Definition kact_ok (x : kact) : Prop := match x with KType us => us <> [] /\ Forall unit_ok us /\ Forall (fun c => 0 <= c < 128) (typed us) | KTake => True end.
