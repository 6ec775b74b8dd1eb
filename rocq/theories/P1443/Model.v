(** Model of the line printer, /repo/src/model1443/model1443.c and the keys of panel1443.c:137-213.
    Flags that only ever hold 0 or 1 are booleans.  The file behind the printer is the list of the bytes in it, or [None] when
    there is none (ctx->file is NULL); writing always succeeds.  Pending callbacks are counted; when they come is left open.
    The tags are compared as whole words in many places; the model has the twelve bits that have a meaning, the others are
    taken to be 0.
    Not modelled: log messages, last_tags (only used for logging), the picture ctx->output (only drawn; the overlapping
    memcpy that moves it up a line is taken as a memmove), fflush, the fields stop, single, start, form, file_name and
    fcb_num, which nothing else reads, and ctx->fcb and ctx->lpp, which keep the values model1443_create gives them. *)
From Verif Require Export Chan.Bus.

(** The states of model1443.c:59-75. *)
Inductive pst := P_IDLE | P_SEL | P_CMD | P_INIT_STAT | P_OPR | P_REQ | P_DATA_O | P_DATA_I | P_DATA_END | P_END
  | P_STACK | P_STACK_SEL | P_STACK_CMD | P_STACK_STA | P_STACK_HLD | P_WAIT.

(** struct _1443_context, model1443.h:35-66. *)
Record dev := mkD {
  p_st : pst;
  p_sel : bool;
  p_req : bool;
  p_adr : bool;
  p_stk : bool;
  p_bsy : bool;
  p_sense : Z;
  p_cmd : Z;
  p_status : Z;
  p_data : Z;
  p_rdyd : bool;
  p_end : bool;
  p_done : bool;
  p_file : option (list Z);
  p_buf : list Z;
  p_col : Z;
  p_row : Z;
  p_ready : bool;
  p_cnt : Z;
  p_pend : nat }.
Definition set_st x s := mkD x (p_sel s) (p_req s) (p_adr s) (p_stk s) (p_bsy s) (p_sense s) (p_cmd s) (p_status s) (p_data s) (p_rdyd s) (p_end s) (p_done s) (p_file s) (p_buf s) (p_col s) (p_row s) (p_ready s) (p_cnt s) (p_pend s).
Definition set_sel x s := mkD (p_st s) x (p_req s) (p_adr s) (p_stk s) (p_bsy s) (p_sense s) (p_cmd s) (p_status s) (p_data s) (p_rdyd s) (p_end s) (p_done s) (p_file s) (p_buf s) (p_col s) (p_row s) (p_ready s) (p_cnt s) (p_pend s).
Definition set_req x s := mkD (p_st s) (p_sel s) x (p_adr s) (p_stk s) (p_bsy s) (p_sense s) (p_cmd s) (p_status s) (p_data s) (p_rdyd s) (p_end s) (p_done s) (p_file s) (p_buf s) (p_col s) (p_row s) (p_ready s) (p_cnt s) (p_pend s).
Definition set_adr x s := mkD (p_st s) (p_sel s) (p_req s) x (p_stk s) (p_bsy s) (p_sense s) (p_cmd s) (p_status s) (p_data s) (p_rdyd s) (p_end s) (p_done s) (p_file s) (p_buf s) (p_col s) (p_row s) (p_ready s) (p_cnt s) (p_pend s).
Definition set_stk x s := mkD (p_st s) (p_sel s) (p_req s) (p_adr s) x (p_bsy s) (p_sense s) (p_cmd s) (p_status s) (p_data s) (p_rdyd s) (p_end s) (p_done s) (p_file s) (p_buf s) (p_col s) (p_row s) (p_ready s) (p_cnt s) (p_pend s).
Definition set_bsy x s := mkD (p_st s) (p_sel s) (p_req s) (p_adr s) (p_stk s) x (p_sense s) (p_cmd s) (p_status s) (p_data s) (p_rdyd s) (p_end s) (p_done s) (p_file s) (p_buf s) (p_col s) (p_row s) (p_ready s) (p_cnt s) (p_pend s).
Definition set_sense x s := mkD (p_st s) (p_sel s) (p_req s) (p_adr s) (p_stk s) (p_bsy s) x (p_cmd s) (p_status s) (p_data s) (p_rdyd s) (p_end s) (p_done s) (p_file s) (p_buf s) (p_col s) (p_row s) (p_ready s) (p_cnt s) (p_pend s).
Definition set_cmd x s := mkD (p_st s) (p_sel s) (p_req s) (p_adr s) (p_stk s) (p_bsy s) (p_sense s) x (p_status s) (p_data s) (p_rdyd s) (p_end s) (p_done s) (p_file s) (p_buf s) (p_col s) (p_row s) (p_ready s) (p_cnt s) (p_pend s).
Definition set_status x s := mkD (p_st s) (p_sel s) (p_req s) (p_adr s) (p_stk s) (p_bsy s) (p_sense s) (p_cmd s) x (p_data s) (p_rdyd s) (p_end s) (p_done s) (p_file s) (p_buf s) (p_col s) (p_row s) (p_ready s) (p_cnt s) (p_pend s).
Definition set_data x s := mkD (p_st s) (p_sel s) (p_req s) (p_adr s) (p_stk s) (p_bsy s) (p_sense s) (p_cmd s) (p_status s) x (p_rdyd s) (p_end s) (p_done s) (p_file s) (p_buf s) (p_col s) (p_row s) (p_ready s) (p_cnt s) (p_pend s).
Definition set_rdyd x s := mkD (p_st s) (p_sel s) (p_req s) (p_adr s) (p_stk s) (p_bsy s) (p_sense s) (p_cmd s) (p_status s) (p_data s) x (p_end s) (p_done s) (p_file s) (p_buf s) (p_col s) (p_row s) (p_ready s) (p_cnt s) (p_pend s).
Definition set_end x s := mkD (p_st s) (p_sel s) (p_req s) (p_adr s) (p_stk s) (p_bsy s) (p_sense s) (p_cmd s) (p_status s) (p_data s) (p_rdyd s) x (p_done s) (p_file s) (p_buf s) (p_col s) (p_row s) (p_ready s) (p_cnt s) (p_pend s).
Definition set_done x s := mkD (p_st s) (p_sel s) (p_req s) (p_adr s) (p_stk s) (p_bsy s) (p_sense s) (p_cmd s) (p_status s) (p_data s) (p_rdyd s) (p_end s) x (p_file s) (p_buf s) (p_col s) (p_row s) (p_ready s) (p_cnt s) (p_pend s).
Definition set_file x s := mkD (p_st s) (p_sel s) (p_req s) (p_adr s) (p_stk s) (p_bsy s) (p_sense s) (p_cmd s) (p_status s) (p_data s) (p_rdyd s) (p_end s) (p_done s) x (p_buf s) (p_col s) (p_row s) (p_ready s) (p_cnt s) (p_pend s).
Definition set_buf x s := mkD (p_st s) (p_sel s) (p_req s) (p_adr s) (p_stk s) (p_bsy s) (p_sense s) (p_cmd s) (p_status s) (p_data s) (p_rdyd s) (p_end s) (p_done s) (p_file s) x (p_col s) (p_row s) (p_ready s) (p_cnt s) (p_pend s).
Definition set_col x s := mkD (p_st s) (p_sel s) (p_req s) (p_adr s) (p_stk s) (p_bsy s) (p_sense s) (p_cmd s) (p_status s) (p_data s) (p_rdyd s) (p_end s) (p_done s) (p_file s) (p_buf s) x (p_row s) (p_ready s) (p_cnt s) (p_pend s).
Definition set_row x s := mkD (p_st s) (p_sel s) (p_req s) (p_adr s) (p_stk s) (p_bsy s) (p_sense s) (p_cmd s) (p_status s) (p_data s) (p_rdyd s) (p_end s) (p_done s) (p_file s) (p_buf s) (p_col s) x (p_ready s) (p_cnt s) (p_pend s).
Definition set_ready x s := mkD (p_st s) (p_sel s) (p_req s) (p_adr s) (p_stk s) (p_bsy s) (p_sense s) (p_cmd s) (p_status s) (p_data s) (p_rdyd s) (p_end s) (p_done s) (p_file s) (p_buf s) (p_col s) (p_row s) x (p_cnt s) (p_pend s).
Definition set_cnt x s := mkD (p_st s) (p_sel s) (p_req s) (p_adr s) (p_stk s) (p_bsy s) (p_sense s) (p_cmd s) (p_status s) (p_data s) (p_rdyd s) (p_end s) (p_done s) (p_file s) (p_buf s) (p_col s) (p_row s) (p_ready s) x (p_pend s).
Definition set_pend x s := mkD (p_st s) (p_sel s) (p_req s) (p_adr s) (p_stk s) (p_bsy s) (p_sense s) (p_cmd s) (p_status s) (p_data s) (p_rdyd s) (p_end s) (p_done s) (p_file s) (p_buf s) (p_col s) (p_row s) (p_ready s) (p_cnt s) x.

(** The carriage tape cctape_legacy, model1443.c:78-86, chosen with lpp = 66 in model1443.c:1091-1092. *)
Definition fcb : list Z := [
  2048; 0; 0; 0; 0; 0; 1024; 0; 0; 0;
  0; 0; 512; 0; 0; 0; 0; 0; 256; 0;
  0; 0; 0; 0; 128; 0; 0; 0; 0; 0;
  64; 0; 0; 0; 0; 0; 32; 0; 0; 0;
  0; 0; 16; 0; 0; 0; 0; 0; 4; 0;
  0; 0; 0; 0; 2; 0; 0; 0; 0; 0;
  1; 0; 8; 0; 0; 0 ].
Definition lpp := 66.

Definition S_CMDREJ := 128. Definition S_INTERV := 64. Definition S_BUSCHK := 32. Definition S_CHAN9 := 1.
Definition or_sense m s := set_sense (Z.lor (p_sense s) m) s.
Definition or_status m s := set_status (Z.lor (p_status s) m) s.
Definition clr_status m s := set_status (Z.ldiff (p_status s) m) s.
Definition CDU := 14. (* SNS_CHNEND|SNS_DEVEND|SNS_UNITCHK *)

(** fwrite to ctx->file; the stream must not be NULL. *)
Definition emit (l : list Z) (s : dev) : res dev := match p_file s with Some f => Ok (set_file (Some (f ++ l)) s) | None => UB end.

(** The text of a line, model1443.c:957-973: [out] holds blanks and the columns converted to ASCII; what is not a printing
    character (isprint in the C locale) becomes a point; then the blanks at the end are dropped, never the first column. *)
Definition isprint (c : Z) : bool := (32 <=? c) && (c <=? 126).
Definition conv (ch : Z) : res Z := let* c := tab ebcdic_to_ascii ch in Ok (if isprint c then c else 46).
Fixpoint convs (l : list Z) : res (list Z) :=
  match l with [] => Ok [] | ch :: r => let* c := conv ch in let* cs := convs r in Ok (c :: cs) end.
Fixpoint trim (out : list Z) (i : nat) : nat :=
  match i with O => O | S j => if nth i out 32 =? 32 then trim out j else i end.
Definition line_text (s : dev) : res (list Z) :=
  if (p_col s <? 0) || (144 <? p_col s) then UB
  else
    let* cs := convs (firstn (Z.to_nat (p_col s)) (p_buf s)) in
    Ok (firstn (match length cs with O => O | S j => S (trim cs j) end) cs).

Definition CRLF := [13; 10].
(** The loop over the lines to space, model1443.c:982-1000.  The result has the number of lines and the channels 9 and 12 seen. *)
Fixpoint space (l : nat) (s : dev) (r : Z) (ch9 ch12 : bool) : res (dev * Z * bool * bool) :=
  match l with
  | O => Ok (s, r, ch9, ch12)
  | S l =>
    let* s := emit CRLF s in
    let* w := tab fcb (p_row s) in
    let ch9 := ch9 || bit w 8 in
    let ch12 := ch12 || bit w 1 in
    let s := set_row (p_row s + 1) s in
    if lpp <? p_row s then Ok (s, r + 1, ch9, ch12) else space l s (r + 1) ch9 ch12
  end.
(** The loop looking for the channel, model1443.c:1023-1034. *)
Fixpoint find_chan (fuel : nat) (mask i : Z) (s : dev) (l r : Z) (f : bool) : res (dev * Z * Z * Z * bool) :=
  match fuel with
  | O => NoFuel
  | S fuel =>
    let* w := tab fcb i in
    if (Z.land w mask =? 0) && negb (p_row s =? i) then
      let* (s, r, f) := if lpp <? i then let* s := emit (CRLF ++ [12]) s in Ok (s, 0, true) else Ok (s, r + 1, f) in
      find_chan fuel mask (i + 1) s (l + 1) r f
    else Ok (s, i, l, r, f)
  end.
(** The loop over the lines to skip, model1443.c:1042-1052. *)
Fixpoint skip_lines (r : nat) (s : dev) : res dev :=
  match r with
  | O => Ok s
  | S r =>
    let* s := emit CRLF s in
    let s := set_row (p_row s + 1) s in
    let* s := if lpp <? p_row s then let* s := emit [12] s in Ok (set_row 0 s) else Ok s in
    skip_lines r s
  end.
(** print_line, model1443.c:936-1056.  The number returned is the time the paper moves. *)
Definition print_line (s : dev) : res (dev * Z) :=
  let l := Z.land (Z.shiftr (p_cmd s) 3) 31 in
  let* (s, time) :=
    if Z.land (p_cmd s) 7 =? 1 then
      let* t := line_text s in
      let* s := emit t s in
      Ok (set_buf (repeat 64 144) s, 11)
    else Ok (s, 0) in
  if l <? 4 then
    let* (s, r, ch9, ch12) := space (Z.to_nat l) s 0 false false in
    let* s := if lpp <? p_row s then let* s := (if r =? 0 then emit CRLF s else Ok s) in let* s := emit [12] s in Ok (set_row 0 s) else Ok s in
    let s := if ch9 && (Z.land (p_cmd s) 3 =? 1) then or_sense S_CHAN9 s else s in
    let s := if ch12 && (Z.land (p_cmd s) 3 =? 1) then or_status SNS_UNITEXP s else s in
    Ok (s, time + 20 + 5 * r)
  else
    let mask := Z.shiftr 4096 (Z.land l 15) in
    let* (s, i, l, r, f) := find_chan 200 mask (p_row s + 1) s 0 0 false in
    let s := if f then set_row 0 s else s in
    let* w := tab fcb i in
    let* s := if bit w mask then skip_lines (Z.to_nat r) s else Ok s in
    Ok (s, l).

(** add_event(unit, done_callback, 2000 * print_line(ctx), NULL, 0): a time of 0 runs the callback at once, event.c:47-51;
    done_callback sets feed_done, model1443.c:158-163. *)
Definition print_event (s : dev) : res dev :=
  let* (s, t) := print_line s in
  Ok (if t =? 0 then set_done true s else set_pend (S (p_pend s)) s).
(** A pending callback comes. *)
Definition fire (s : dev) : option dev := match p_pend s with O => None | S n => Some (set_pend n (set_done true s)) end.

(** A command arrives, STATE_SEL, model1443.c:249-337.  [bad] says that the byte has the wrong parity. *)
Definition skip_bad (c : Z) : bool := bit c 128 && ((Z.land c 120 =? 0) || (96 <? Z.land c 120)).
Definition space_bad (c : Z) : bool := negb (bit c 128) && (24 <? Z.land c 120).
Definition reject (s : dev) : dev := set_sense S_CMDREJ (set_status CDU (set_cmd 0 s)).
Definition begin_cmd (c : Z) (s : dev) : dev :=
  mkD P_CMD (p_sel s) (p_req s) (p_adr s) (p_stk s) (p_bsy s) (p_sense s) c 0 (p_data s) false false false (p_file s) (p_buf s)
    0 (p_row s) (p_ready s) 0 (p_pend s).
Definition obey (c : Z) (s : dev) : res dev :=
  let k := Z.land c 7 in
  if k =? 0 then Ok s
  else if k =? 1 then
    let s := set_sense 0 s in
    if skip_bad c || space_bad c then Ok (reject s) else Ok (set_rdyd true s)
  else if k =? 2 then Ok (set_sense S_CMDREJ (set_status CDU s))
  else if k =? 3 then
    let s := set_sense 0 s in
    if skip_bad c || space_bad c then Ok (reject s)
    else let* s := print_event s in Ok (set_end true (set_status SNS_CHNEND s))
  else if k =? 4 then
    if negb (c =? 4) then Ok (reject s) else Ok (set_end true (set_rdyd true (set_data (p_sense s) s)))
  else Ok (reject s).
Definition no_paper (s : dev) : bool := negb (p_ready s) || match p_file s with None => true | _ => false end.
Definition take_cmd (bo : Z) (s : dev) : res dev :=
  let c := Z.land bo 255 in
  let s := begin_cmd c s in
  if no_paper s then Ok (set_status CDU (set_sense S_INTERV s))
  else
    let* s := obey c s in
    let* bad := bad_parity bo in
    Ok (if bad then or_sense S_BUSCHK (set_status CDU (set_cmd 0 s)) else s).

(** *tags == ... : the tags of the channel in the order select, address, command, service, suppress, hold, operational; the
    tags of the device in the order operational, address, status, service, request. *)
Definition tags_eqb (t u : tags) : bool :=
  Bool.eqb (selo t) (selo u) && Bool.eqb (adro t) (adro u) && Bool.eqb (cmdo t) (cmdo u) && Bool.eqb (srvo t) (srvo u) &&
  Bool.eqb (supo t) (supo u) && Bool.eqb (hldo t) (hldo u) && Bool.eqb (opro t) (opro u) && Bool.eqb (opri t) (opri u) &&
  Bool.eqb (adri t) (adri u) && Bool.eqb (stai t) (stai u) && Bool.eqb (srvi t) (srvi u) && Bool.eqb (reqi t) (reqi u).
(** OPR_OUT|SEL_OUT|HLD_OUT and, as given, ADR_OUT, SUP_OUT, OPR_IN, ADR_IN, REQ_IN. *)
Definition T_sel (ao su oi ai ri : bool) : tags := mkT true ao false false su true true oi ai false false ri.
(** OPR_OUT and, as given, HLD_OUT, ADR_OUT, OPR_IN, STA_IN. *)
Definition T_opr (ho ao oi si : bool) : tags := mkT false ao false false false ho true oi false si false false.
Definition selecting4 (t : tags) : bool :=
  tags_eqb t (T_sel true false false false false) || tags_eqb t (T_sel true true false false false) ||
  tags_eqb t (T_sel true false false false true) || tags_eqb t (T_sel true true false false true).

Definition set_selo_opri t := set_opri true (set_selo false t).
(** model1443_dev, model1443.c:165-930, for the device with address [a]; the tags, bus-out and bus-in are parameters and
    tags and bus-in also results. *)
Definition dev_step (a : Z) (s : dev) (t : tags) (bo bi : Z) : res (dev * tags * Z) :=
  if negb (opro t) && negb (supo t) then
    let t := if p_sel s || p_adr s then set_opri false (set_adri false (set_srvi false (set_stai false t))) else t in
    let t := if p_req s then set_reqi false t else t in
    Ok (set_cmd 0 (set_sense 0 (set_st P_IDLE (set_status 0 (set_req false (set_stk false (set_adr false (set_sel false s))))))), t, bi)
  else
  match p_st s with
  | P_IDLE => (* 197-213 *)
    if selecting4 t && (Z.land bo 255 =? a) then
      let* bad := bad_parity bo in
      let s := if bad then or_sense S_BUSCHK s else s in
      Ok (set_adr true (set_st P_SEL s), set_selo_opri t, bi)
    else Ok (s, t, bi)
  | P_SEL => (* 215-339 *)
    let t := if p_adr s || p_sel s then set_selo_opri t else t in
    let* w := with_parity a in
    if p_adr s && negb (adro t) && negb (cmdo t) then Ok (set_adr false (set_sel true s), set_adri true t, w)
    else if p_sel s && negb (adro t) && negb (cmdo t) then Ok (s, set_adri true t, w)
    else if p_sel s && adro t then Ok (set_st P_IDLE (set_sel false s), set_opri false (set_adri false (set_selo false t)), bi)
    else if p_sel s && cmdo t then let* s := take_cmd bo s in Ok (s, set_adri false t, bi)
    else Ok (s, t, bi)
  | P_CMD => (* 341-377 *)
    if p_sel s then
      let t := set_selo_opri t in
      if cmdo t && stai t then Ok (set_sel false (set_stk true (set_st P_STACK s)), set_opri false (set_stai false t), bi)
      else if cmdo t then Ok (s, t, bi)
      else
        let* w := with_parity (p_status s) in
        let t := set_stai true t in
        if srvo t then Ok (set_st P_INIT_STAT s, set_stai false t, w) else Ok (s, t, w)
    else Ok (s, t, bi)
  | P_INIT_STAT => (* 379-424 *)
    if p_sel s then
      let t := set_selo_opri t in
      if srvo t then Ok (s, t, bi)
      else if (p_cmd s =? 0) || bit (p_status s) 3 then
        Ok (set_adr false (set_sel false (set_st P_IDLE s)), set_opri false t, bi)
      else if bit (p_status s) SNS_CHNEND then
        Ok (set_st P_WAIT (set_adr false (set_sel false (clr_status SNS_CHNEND s))), set_selo false (set_opri false t), bi)
      else if negb (hldo t) && negb (p_rdyd s) && negb (p_cmd s =? 4) then
        Ok (set_st P_OPR (set_adr false (set_sel false s)), set_opri false t, bi)
      else Ok (set_st P_OPR s, t, bi)
    else Ok (set_st P_OPR s, t, bi)
  | P_OPR => (* 426-508 *)
    let t := if p_sel s then set_selo false t else t in
    if negb (p_sel s) && tags_eqb t (T_sel true false false false false) && (Z.land bo 255 =? a) then
      Ok (set_adr true (set_sel true s), set_stai true (set_selo false t), SNS_BSY)
    else if p_sel s && tags_eqb t (T_opr true true true false) && (Z.land bo 255 =? a) then
      Ok (set_sel false (set_rdyd false (set_end true s)), set_opri false t, bi)
    else if p_sel s && tags_eqb t (T_opr true true false true) then Ok (s, set_stai true t, SNS_BSY)
    else if p_sel s && (tags_eqb t (T_opr true false false true) || tags_eqb t (T_opr false false false true)) then
      Ok (set_sel false s, set_stai false t, bi)
    else if p_rdyd s then Ok (set_st (if bit (p_cmd s) 1 then P_DATA_I else P_DATA_O) s, t, bi)
    else if p_end s then
      let s := if p_cmd s =? 4 then set_status 12 s else s in
      let* s := if Z.land (p_cmd s) 7 =? 1 then let* s := print_event s in Ok (or_status SNS_CHNEND s) else Ok s in
      let s := if bit (p_status s) SNS_CHNEND then set_st P_DATA_END s else s in
      let s := if bit (p_status s) SNS_DEVEND then set_st P_END s else s in
      Ok (s, t, bi)
    else Ok (s, t, bi)
  | P_REQ => (* 510-586 *)
    let* w := with_parity a in
    if tags_eqb t (T_sel false true false false true) || tags_eqb t (T_sel false false false false true) then
      Ok (set_adr true s, set_adri true (set_opri true (set_reqi false (set_selo false t))), w)
    else if tags_eqb t (T_sel false true true true false) || tags_eqb t (T_sel false false true true false) then
      Ok (set_adr true (set_req false s), set_adri true (set_selo_opri t), w)
    else if p_req s && (tags_eqb t (T_sel true true false false true) || tags_eqb t (T_sel true false false false true)) then
      Ok (set_req false s, set_reqi false t, bi)
    else if p_adr s && cmdo t then
      let s := set_adr false (set_sel true s) in
      let st := if p_end s then if bit (p_status s) SNS_DEVEND then P_END else P_DATA_END
                else if bit (p_cmd s) 1 then P_DATA_I else P_DATA_O in
      Ok (set_st st s, set_adri false (set_selo false t), bi)
    else if p_adr s then
      let t := set_adri true (set_selo_opri t) in
      if p_req s then Ok (set_req false s, set_reqi false t, w) else Ok (s, t, w)
    else if opri t || stai t then
      if p_req s then Ok (set_req false s, set_reqi false t, bi) else Ok (s, t, bi)
    else Ok (set_req true s, set_reqi true t, bi)
  | P_DATA_I => (* 588-647 *)
    if negb (p_sel s) then Ok (set_st P_REQ s, t, bi)
    else
      let t := set_srvi true (set_selo_opri t) in
      if srvo t then
        let t := set_srvi false t in
        let s := set_rdyd false s in
        let* bad := bad_parity bo in
        if bad then Ok (set_st P_END (set_status CDU (or_sense S_BUSCHK s)), t, bi)
        else if (p_col s <? 0) || (144 <=? p_col s) then UB
        else
          let s := set_buf (upd (p_buf s) (Z.to_nat (p_col s)) (Z.land bo 255)) (set_st P_INIT_STAT (set_data bo s)) in
          let s := set_rdyd true (set_cnt (p_cnt s + 1) (set_col (p_col s + 1) s)) in
          let '(s, t) := if p_cnt s =? 3 then
                           let s := set_cnt 0 s in
                           if negb (selo t) then (set_sel false s, set_opri false t) else (s, t)
                         else (s, t) in
          let s := if p_col s =? 120 then set_end true (set_rdyd false s) else s in
          Ok (s, t, bi)
      else if cmdo t then Ok (set_st P_INIT_STAT (set_end true (set_rdyd false s)), set_srvi false t, bi)
      else Ok (s, t, bi)
  | P_DATA_O => (* 649-676 *)
    if negb (p_sel s) then Ok (set_st P_REQ s, t, bi)
    else
      let t := set_srvi true (set_selo_opri t) in
      let* w := with_parity (p_data s) in
      let '(s, t) := if srvo t then (set_st P_INIT_STAT (set_rdyd false s), set_srvi false t) else (s, t) in
      if cmdo t then Ok (set_st P_INIT_STAT (set_end true (set_rdyd false s)), set_srvi false t, w) else Ok (s, t, w)
  | P_DATA_END => (* 678-717 *)
    if negb (p_sel s) then Ok (set_st P_REQ s, t, bi)
    else
      let* w := with_parity (p_status s) in
      let t := set_selo_opri t in
      if srvo t && negb (stai t) then Ok (s, t, w)
      else if negb (srvo t) then Ok (s, set_stai true t, w)
      else
        let s := if negb (hldo t) then set_sel false s else s in
        let t := set_opri false (set_stai false t) in
        let s := if cmdo t then set_stk true s else s in
        Ok (set_st P_WAIT (clr_status SNS_CHNEND s), t, w)
  | P_END => (* 719-772 *)
    if negb (p_sel s) then Ok (set_st P_REQ s, t, bi)
    else
      let t := set_selo_opri t in
      if srvo t && negb (stai t) then Ok (s, t, bi)
      else
        let s := if p_bsy s then or_status SNS_CTLEND s else s in
        let* w := with_parity (p_status s) in
        if negb (srvo t) && negb (stai t) then
          let s := if negb (p_sense s =? 0) then or_status SNS_UNITCHK s else s in
          Ok (set_cmd 0 s, set_stai true t, w)
        else if srvo t then Ok (set_st P_IDLE (set_bsy false (set_sel false s)), set_opri false (set_stai false t), w)
        else if cmdo t then Ok (set_st P_STACK (set_stk true (set_sel false s)), set_opri false (set_stai false t), w)
        else Ok (s, t, w)
  | P_STACK => (* 774-796 *)
    let* (s, t) :=
      if selecting4 t && (Z.land bo 255 =? a) then
        let* bad := bad_parity bo in
        let s := if bad then or_sense S_BUSCHK s else s in
        Ok (set_adr true (set_st P_STACK_SEL s), set_selo_opri t)
      else Ok (s, t) in
    if p_stk s && p_done s && tags_eqb t (T_opr false false false false) then Ok (set_st P_REQ s, t, bi) else Ok (s, t, bi)
  | P_STACK_SEL => (* 798-830 *)
    let t := if p_adr s || p_sel s then set_selo_opri t else t in
    let* w := with_parity a in
    if p_adr s && negb (adro t) && negb (cmdo t) then Ok (set_sel true (set_adr false s), set_adri true t, w)
    else if p_sel s then
      if cmdo t then
        let s := set_st P_STACK_CMD s in
        let* bad := bad_parity bo in
        let s := if bad then or_sense S_BUSCHK (set_status CDU s) else s in
        Ok (s, set_adri false (set_selo false t), w)
      else Ok (s, t, w)
    else Ok (s, t, bi)
  | P_STACK_CMD => (* 832-844; *tags has OPR_IN up and is never just CHAN_CMD_OUT *)
    let* w := with_parity (p_status s) in
    let t := set_selo_opri t in
    if negb (tags_eqb t (mkT false false true false false false false false false false false false))
    then Ok (set_st P_STACK_STA s, set_stai true t, w) else Ok (s, t, w)
  | P_STACK_STA => (* 846-865 *)
    let* w := with_parity (p_status s) in
    let t := set_selo_opri t in
    if srvo t || cmdo t then
      let t := set_stai false t in
      let s := if cmdo t then set_stk true s else s in
      let s := if srvo t then clr_status SNS_CHNEND (set_stk false s) else s in
      Ok (set_st P_STACK_HLD s, t, w)
    else Ok (s, t, w)
  | P_STACK_HLD => (* 867-887 *)
    let t := set_selo_opri t in
    if negb (cmdo t) && negb (srvo t) then
      let s := set_st (if p_stk s then if p_done s then P_STACK else P_WAIT else P_IDLE) s in
      Ok (set_sel false s, set_opri false t, bi)
    else Ok (s, t, bi)
  | P_WAIT => (* 889-926 *)
    let sb := 256 + SNS_SMS + SNS_BSY in
    let '(s, t, bi) :=
      if negb (p_sel s) && (tags_eqb t (T_sel true false false false false) || tags_eqb t (T_sel true true false false false)) &&
         (Z.land bo 255 =? a)
      then (set_adr true (set_bsy true s), set_selo false (set_stai true t), sb) else (s, t, bi) in
    let '(s, t, bi) :=
      if p_adr s then
        let t := set_stai true (set_selo false t) in
        if negb (hldo t) then (set_adr false s, set_stai false t, sb) else (s, t, sb)
      else (s, t, bi) in
    let s := if p_done s then set_st P_END (or_status SNS_DEVEND s) else s in
    Ok (s, t, bi)
  end.

(** model1443_create, model1443.c:1058-1128: the printer as made, without a file (calloc), or with START and FILE given. *)
Definition fresh : dev :=
  mkD P_IDLE false false false false false 0 0 0 0 false false false None (repeat 0 144) 0 0 false 0 O.
Definition with_file (old : list Z) (start : bool) (s : dev) : dev := set_ready start (set_row 0 (set_file (Some old) s)).

(** The keys, panel1443.c:137-213.  The last one puts in paper: another file, whose content is [f], if it can be opened. *)
Inductive key := KStart | KCheckReset | KStop | KSpace | KRestore | KSingle | KPaper (f : option (list Z)).
Definition do_key (k : key) (s : dev) : res dev :=
  let idle := match p_st s with P_IDLE => true | _ => false end in
  let has_file := match p_file s with Some _ => true | None => false end in
  match k with
  | KStart => Ok (if idle && has_file then set_ready true (set_end true (or_status SNS_DEVEND s)) else s)
  | KCheckReset => Ok (if idle then set_sense 0 s else s)
  | KStop => Ok (set_ready false s)
  | KSpace => if negb (p_ready s) then let* (s, _) := print_line (set_cmd 11 s) in Ok (set_cmd 0 s) else Ok s
  | KRestore => if negb (p_ready s) then let* (s, _) := print_line (set_cmd 139 s) in Ok (set_cmd 0 s) else Ok s
  | KSingle => Ok (if idle && has_file then set_ready true s else s)
  | KPaper f => Ok (match f with Some _ => set_row 0 (set_file f s) | None => set_file None s end)
  end.
