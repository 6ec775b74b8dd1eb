(** What is expected of the printer. *)
From Verif Require Export P1443.Model.

(** Whatever can happen to the printer: a cycle of the channel, the end of a movement of the paper, a key. *)
Inductive act := Chan (t : tags) (bo bi : Z) | Fire | Key (k : key).
Definition astep (a : Z) (s : dev) (x : act) : res dev :=
  match x with
  | Chan t bo bi => let* r := dev_step a s t bo bi in Ok (fst (fst r))
  | Fire => Ok (match fire s with Some s' => s' | None => s end)
  | Key k => do_key k s
  end.
Fixpoint run (a : Z) (s : dev) (l : list act) : res dev :=
  match l with [] => Ok s | x :: r => let* s' := astep a s x in run a s' r end.

(** *** Lines of text *)
(** The character printed for a byte: its ASCII equivalent if that can be printed, a point otherwise. *)
Definition glyph (b : Z) : Z := let c := nth (Z.to_nat b) ebcdic_to_ascii 0 in if (32 <=? c) && (c <=? 126) then c else 46.
(** [p] is the line [l] without the blanks at its end; the first column always stays. *)
Definition trimmed (l p : list Z) : Prop :=
  (exists k, l = p ++ repeat 32 k) /\ (l <> [] -> p <> []) /\ (forall q, p <> [] -> p = q ++ [32] -> q = []).
Definition is_byte (b : Z) : Prop := 0 <= b < 256.

(** *** The carriage *)
(** The holes of the carriage tape: channel 1 at line 1, and so on.  Row [r] of the model is line [r + 1]. *)
Definition hole (c : Z) : Z :=
  match c with 1 => 1 | 2 => 7 | 3 => 13 | 4 => 19 | 5 => 25 | 6 => 31 | 7 => 37 | 8 => 43 | 9 => 63 | 10 => 49 | 11 => 55 | 12 => 61 | _ => 0 end.
Definition line (s : dev) : Z := p_row s + 1.
Definition newlines (n : nat) : list Z := concat (repeat [13; 10] n).
(** Commands: write (or only move the paper), then space n lines or skip to channel c. *)
Definition space_cmd (w : bool) (n : Z) : Z := 8 * n + if w then 1 else 3.
Definition skip_cmd (w : bool) (c : Z) : Z := 128 + 8 * c + if w then 1 else 3.
(** Spacing n lines goes over the hole of channel c. *)
Definition passes (s : dev) (n c : Z) : bool := (line s <=? hole c) && (hole c <? line s + n).
(** Nothing else of the printer is different. *)
Definition same_but_print (s s' : dev) : Prop :=
  p_st s' = p_st s /\ p_sel s' = p_sel s /\ p_req s' = p_req s /\ p_adr s' = p_adr s /\ p_stk s' = p_stk s /\ p_bsy s' = p_bsy s /\
  p_cmd s' = p_cmd s /\ p_data s' = p_data s /\ p_rdyd s' = p_rdyd s /\ p_end s' = p_end s /\ p_done s' = p_done s /\
  p_col s' = p_col s /\ p_ready s' = p_ready s /\ p_cnt s' = p_cnt s /\ p_pend s' = p_pend s.
(** What the columns received give on paper. *)
Definition text_of (s : dev) (p : list Z) : Prop := trimmed (map glyph (firstn (Z.to_nat (p_col s)) (p_buf s))) p.

(** The columns received are bytes within the buffer. *)
Definition ok_buf (s : dev) : Prop := 0 <= p_col s <= 144 /\ Forall is_byte (p_buf s).

(** When moving the paper is not defined by C: there is no file, the carriage is below the tape, or the hole looked for is not
    below the current line. *)
Definition undefined_print (s : dev) : Prop :=
  let l := Z.land (Z.shiftr (p_cmd s) 3) 31 in
  let writes := Z.land (p_cmd s) 7 = 1 in
  (p_file s = None /\ (writes \/ 0 < l < 4 \/ (4 <= l /\ line s + 1 < hole (Z.land l 15)))) \/
  (0 < l < 4 /\ 66 < line s + l - 1) \/
  (4 <= l /\ ~ line s < hole (Z.land l 15)).

(** *** On the interface *)
Definition resetting (t : tags) : Prop := opro t = false /\ supo t = false.
(** The channel selects the printer by its address, or polls it while it asks for service. *)
Definition addressing (a : Z) (t : tags) (bo : Z) : Prop :=
  opro t = true /\ selo t = true /\ hldo t = true /\ adro t = true /\ opri t = false /\ Z.land bo 255 = a.
Definition polling (t : tags) : Prop := opro t = true /\ selo t = true /\ hldo t = true /\ adro t = false /\ (reqi t = true \/ adri t = true).
(** The printer takes part: it raises a tag (except request-in), changes bus-in, or does not pass on select-out. *)
Definition drives (t : tags) (bi : Z) (t' : tags) (bi' : Z) : Prop :=
  (opri t = false /\ opri t' = true) \/ (adri t = false /\ adri t' = true) \/ (stai t = false /\ stai t' = true) \/
  (srvi t = false /\ srvi t' = true) \/ bi' <> bi \/ selo t' <> selo t.
Definition odd9 (b : Z) : Prop := 0 <= b < 512 /\ odd_bits 9 b = true.

(** *** Whole commands: the printer and a channel *)
(** What the channel does in a cycle: its seven tags and bus-out; the tags of the printer stay as the printer left them. *)
Record outs := mkO { o_sel : bool; o_adr : bool; o_cmd : bool; o_srv : bool; o_sup : bool; o_hld : bool }.
Inductive item := Cyc (o : outs) (bo : Z) | Done.
Definition chan_tags (o : outs) (t : tags) : tags :=
  mkT (o_sel o) (o_adr o) (o_cmd o) (o_srv o) (o_sup o) (o_hld o) true (opri t) (adri t) (stai t) (srvi t) (reqi t).
(** The status bytes are those shown when status-in comes up. *)
Fixpoint talk (a : Z) (l : list item) (s : dev) (t : tags) (bi : Z) : res (dev * tags * Z * list Z * list Z) :=
  match l with
  | [] => Ok (s, t, bi, [], [])
  | Cyc o bo :: l =>
    let* (s1, t1, b1) := dev_step a s (chan_tags o t) bo bi in
    let* (s2, t2, b2, st, d) := talk a l s1 t1 b1 in
    Ok (s2, t2, b2, (if negb (stai t) && stai t1 then [Z.land b1 255] else []) ++ st,
                    (if negb (srvi t) && srvi t1 then [Z.land b1 255] else []) ++ d)
  | Done :: l => match fire s with Some s => talk a l s t bi | None => UB end
  end.
Definition free : tags := mkT false false false false false false true false false false false false.
Definition nothing := mkO false false false false false false.
Definition held := mkO false false false false false true.
Definition o_select := mkO true true false false false true.   (* select-out, address-out *)
Definition o_poll := mkO true false false false false true.    (* select-out *)
Definition o_command := mkO false false true false false true. (* command-out *)
Definition o_service := mkO false false false true false true. (* service-out *)
(** Selection with the address, the command, and the initial status taken. *)
Definition start_io (pa pc : Z) : list item := [Cyc o_select pa; Cyc held pa; Cyc o_command pc; Cyc held pc; Cyc o_service pc; Cyc held pc].
(** A byte of data (with its parity) answers service-in. *)
Definition give (b : Z) : list item := [Cyc held b; Cyc held b; Cyc o_service b; Cyc held b].
(** After three bytes the printer lets the interface go and has to be polled. *)
Definition again : list item := [Cyc nothing 0; Cyc nothing 0; Cyc nothing 0; Cyc o_poll 0; Cyc o_command 0].
Fixpoint give_all (k : nat) (l : list Z) : list item :=
  match l with
  | [] => []
  | b :: r => match k with O => give b ++ again ++ give_all 2 r | S k => give b ++ give_all k r end
  end.
(** Command-out answers service-in: there is no more data. *)
Definition no_more : list item := [Cyc held 0; Cyc held 0; Cyc o_command 0; Cyc held 0].
(** The printer shows channel end, which is taken and the interface let go; when the paper has moved it asks for service and
    shows device end. *)
Definition take_chan_end : list item := [Cyc held 0; Cyc held 0; Cyc (mkO false false false true false false) 0; Cyc nothing 0].
Definition take_dev_end : list item :=
  [Cyc nothing 0; Cyc nothing 0; Cyc nothing 0; Cyc o_poll 0; Cyc o_command 0; Cyc held 0; Cyc o_service 0; Cyc nothing 0].
Definition take_end : list item := take_chan_end ++ Done :: take_dev_end.
(** A line of 120 columns is full: the printer does not ask for more. *)
Definition write_line (pa pc : Z) (l : list Z) : list item :=
  start_io pa pc ++ give_all 2 l ++ (if (length l <? 120)%nat then no_more else []) ++ take_end.
(** The printer waits for work, with paper. *)
Definition idle (s : dev) (f : list Z) : Prop :=
  p_st s = P_IDLE /\ p_sel s = false /\ p_adr s = false /\ p_bsy s = false /\ p_ready s = true /\ p_file s = Some f /\
  length (p_buf s) = 144%nat /\ Forall is_byte (p_buf s).
(** [pl] are the bytes [l] with their parity bits. *)
Definition with_parities (l pl : list Z) : Prop := Forall2 (fun b pb => is_byte b /\ with_parity b = Ok pb) l pl.

(** *** When a cycle is not defined by C *)
(** It moves the paper when that is not defined, or sends a byte that is not a byte (ctx->data still has a parity bit). *)
Definition undefined_cycle (s : dev) (t : tags) (bo : Z) : Prop :=
  ~ resetting t /\
  ((p_st s = P_SEL /\ p_sel s = true /\ cmdo t = true /\ adro t = false /\ p_ready s = true /\ p_file s <> None /\ Z.land bo 7 = 3 /\
    undefined_print (set_cmd (Z.land bo 255) s)) \/
   (p_st s = P_OPR /\ p_rdyd s = false /\ p_end s = true /\ Z.land (p_cmd s) 7 = 1 /\ undefined_print s) \/
   (p_st s = P_DATA_O /\ p_sel s = true /\ ~ is_byte (p_data s))).
(** A key moves the paper (only when the printer is not ready) where that is not defined: "carriage restore" skips to channel 1,
    which is on the first line. *)
Definition undefined_key (s : dev) (k : key) : Prop :=
  p_ready s = false /\ match k with KRestore => True | KSpace => p_file s = None \/ 66 < line s | _ => False end.
Definition undefined_act (s : dev) (x : act) : Prop :=
  match x with Chan t bo bi => undefined_cycle s t bo | Fire => False | Key k => undefined_key s k end.

(** Channel cycles without a reset, and ends of movements. *)
Definition no_reset (x : act) : Prop := match x with Chan t _ _ => ~ resetting t | Fire => True | Key _ => False end.

(** *** Answers to commands *)
(** The commands the printer knows: write and space 0 to 3 lines, write and skip to channel 1 to 12, the same without writing
    (at once), sense, and 0 (test). *)
Definition writes_ (c : Z) : Prop := (exists n, 0 <= n <= 3 /\ c = space_cmd true n) \/ (exists n, 1 <= n <= 12 /\ c = skip_cmd true n).
Definition moves_ (c : Z) : Prop := (exists n, 0 <= n <= 3 /\ c = space_cmd false n) \/ (exists n, 1 <= n <= 12 /\ c = skip_cmd false n).
(** Selection, then the command: the printer answers with its first status. *)
Definition ask (pa pc : Z) : list item := [Cyc o_select pa; Cyc held pa; Cyc o_command pc; Cyc held pc].
(** A whole sense command: the status, the byte of sense, the ending status. *)
Definition sense_all (pa pc : Z) : list item :=
  start_io pa pc ++ [Cyc held 0; Cyc held 0; Cyc o_service 0; Cyc held 0; Cyc held 0; Cyc held 0; Cyc o_service 0; Cyc nothing 0].
