(** Model of the console, /repo/src/model1052/model1052.c.
    Flags that only ever hold 0 or 1 are booleans.  The thread model1052_thrd is a sequence of passes through its loop; a pass,
    a channel cycle, a callback and a call from the 2030 are each taken as one step (the C code shares the fields without
    locks).  The socket is [c_cons] (connected or not) and the list [c_sent] of the bytes sent to it; send takes everything.
    Characters are bytes 0..255; char is signed, so that TN_IAC is 255, TN_BRK 243, TN_WILL 251, TN_WONT 252.
    Pending events: [c_poll] for poll_callback (reset cancels one and adds one, so there is at most one), [c_pend] counts the
    send_callback; when they come is left open.  ctx->running is 1.
    Not modelled: log messages and the form feed that switches them (the character is dropped), last_tags (only used for
    logging), opening the listening socket, the configuration, and the test of CHAN_OPR_OUT in STATE_IDLE for tags with
    suppress-out (the cycle then does nothing). *)
From Verif Require Export Chan.Bus.

(** The states of the telnet protocol, model1052.c:63-70 (TNS_CRPAD is never entered). *)
Inductive tns := T_NORM | T_IAC | T_WILL | T_WONT | T_SKIP.

(** struct _1052_context, model1052.c:84-113, and the fields selected, request and stacked of struct _device. *)
Record dev := mkC {
  c_st : dstate;
  c_sel : bool;
  c_req : bool;
  c_stk : bool;
  c_sense : Z;
  c_cmd : Z;
  c_status : Z;
  c_bsy : bool;
  c_data : Z;
  c_rdyd : bool;
  c_end : bool;
  c_done : bool;
  c_cons : bool;
  c_keys : list Z;
  c_obuf : Z;
  c_oflg : bool;
  c_ocr : bool;
  c_iflg : bool;
  c_iptr : Z;
  c_optr : Z;
  c_ilen : Z;
  c_home : bool;
  c_attn : bool;
  c_cancel : bool;
  c_eob : bool;
  c_tn : tns;
  c_sent : list Z;
  c_poll : bool;
  c_pend : nat }.
Definition set_st x s := mkC x (c_sel s) (c_req s) (c_stk s) (c_sense s) (c_cmd s) (c_status s) (c_bsy s) (c_data s) (c_rdyd s) (c_end s) (c_done s) (c_cons s) (c_keys s) (c_obuf s) (c_oflg s) (c_ocr s) (c_iflg s) (c_iptr s) (c_optr s) (c_ilen s) (c_home s) (c_attn s) (c_cancel s) (c_eob s) (c_tn s) (c_sent s) (c_poll s) (c_pend s).
Definition set_sel x s := mkC (c_st s) x (c_req s) (c_stk s) (c_sense s) (c_cmd s) (c_status s) (c_bsy s) (c_data s) (c_rdyd s) (c_end s) (c_done s) (c_cons s) (c_keys s) (c_obuf s) (c_oflg s) (c_ocr s) (c_iflg s) (c_iptr s) (c_optr s) (c_ilen s) (c_home s) (c_attn s) (c_cancel s) (c_eob s) (c_tn s) (c_sent s) (c_poll s) (c_pend s).
Definition set_req x s := mkC (c_st s) (c_sel s) x (c_stk s) (c_sense s) (c_cmd s) (c_status s) (c_bsy s) (c_data s) (c_rdyd s) (c_end s) (c_done s) (c_cons s) (c_keys s) (c_obuf s) (c_oflg s) (c_ocr s) (c_iflg s) (c_iptr s) (c_optr s) (c_ilen s) (c_home s) (c_attn s) (c_cancel s) (c_eob s) (c_tn s) (c_sent s) (c_poll s) (c_pend s).
Definition set_stk x s := mkC (c_st s) (c_sel s) (c_req s) x (c_sense s) (c_cmd s) (c_status s) (c_bsy s) (c_data s) (c_rdyd s) (c_end s) (c_done s) (c_cons s) (c_keys s) (c_obuf s) (c_oflg s) (c_ocr s) (c_iflg s) (c_iptr s) (c_optr s) (c_ilen s) (c_home s) (c_attn s) (c_cancel s) (c_eob s) (c_tn s) (c_sent s) (c_poll s) (c_pend s).
Definition set_sense x s := mkC (c_st s) (c_sel s) (c_req s) (c_stk s) x (c_cmd s) (c_status s) (c_bsy s) (c_data s) (c_rdyd s) (c_end s) (c_done s) (c_cons s) (c_keys s) (c_obuf s) (c_oflg s) (c_ocr s) (c_iflg s) (c_iptr s) (c_optr s) (c_ilen s) (c_home s) (c_attn s) (c_cancel s) (c_eob s) (c_tn s) (c_sent s) (c_poll s) (c_pend s).
Definition set_cmd x s := mkC (c_st s) (c_sel s) (c_req s) (c_stk s) (c_sense s) x (c_status s) (c_bsy s) (c_data s) (c_rdyd s) (c_end s) (c_done s) (c_cons s) (c_keys s) (c_obuf s) (c_oflg s) (c_ocr s) (c_iflg s) (c_iptr s) (c_optr s) (c_ilen s) (c_home s) (c_attn s) (c_cancel s) (c_eob s) (c_tn s) (c_sent s) (c_poll s) (c_pend s).
Definition set_status x s := mkC (c_st s) (c_sel s) (c_req s) (c_stk s) (c_sense s) (c_cmd s) x (c_bsy s) (c_data s) (c_rdyd s) (c_end s) (c_done s) (c_cons s) (c_keys s) (c_obuf s) (c_oflg s) (c_ocr s) (c_iflg s) (c_iptr s) (c_optr s) (c_ilen s) (c_home s) (c_attn s) (c_cancel s) (c_eob s) (c_tn s) (c_sent s) (c_poll s) (c_pend s).
Definition set_bsy x s := mkC (c_st s) (c_sel s) (c_req s) (c_stk s) (c_sense s) (c_cmd s) (c_status s) x (c_data s) (c_rdyd s) (c_end s) (c_done s) (c_cons s) (c_keys s) (c_obuf s) (c_oflg s) (c_ocr s) (c_iflg s) (c_iptr s) (c_optr s) (c_ilen s) (c_home s) (c_attn s) (c_cancel s) (c_eob s) (c_tn s) (c_sent s) (c_poll s) (c_pend s).
Definition set_data x s := mkC (c_st s) (c_sel s) (c_req s) (c_stk s) (c_sense s) (c_cmd s) (c_status s) (c_bsy s) x (c_rdyd s) (c_end s) (c_done s) (c_cons s) (c_keys s) (c_obuf s) (c_oflg s) (c_ocr s) (c_iflg s) (c_iptr s) (c_optr s) (c_ilen s) (c_home s) (c_attn s) (c_cancel s) (c_eob s) (c_tn s) (c_sent s) (c_poll s) (c_pend s).
Definition set_rdyd x s := mkC (c_st s) (c_sel s) (c_req s) (c_stk s) (c_sense s) (c_cmd s) (c_status s) (c_bsy s) (c_data s) x (c_end s) (c_done s) (c_cons s) (c_keys s) (c_obuf s) (c_oflg s) (c_ocr s) (c_iflg s) (c_iptr s) (c_optr s) (c_ilen s) (c_home s) (c_attn s) (c_cancel s) (c_eob s) (c_tn s) (c_sent s) (c_poll s) (c_pend s).
Definition set_end x s := mkC (c_st s) (c_sel s) (c_req s) (c_stk s) (c_sense s) (c_cmd s) (c_status s) (c_bsy s) (c_data s) (c_rdyd s) x (c_done s) (c_cons s) (c_keys s) (c_obuf s) (c_oflg s) (c_ocr s) (c_iflg s) (c_iptr s) (c_optr s) (c_ilen s) (c_home s) (c_attn s) (c_cancel s) (c_eob s) (c_tn s) (c_sent s) (c_poll s) (c_pend s).
Definition set_done x s := mkC (c_st s) (c_sel s) (c_req s) (c_stk s) (c_sense s) (c_cmd s) (c_status s) (c_bsy s) (c_data s) (c_rdyd s) (c_end s) x (c_cons s) (c_keys s) (c_obuf s) (c_oflg s) (c_ocr s) (c_iflg s) (c_iptr s) (c_optr s) (c_ilen s) (c_home s) (c_attn s) (c_cancel s) (c_eob s) (c_tn s) (c_sent s) (c_poll s) (c_pend s).
Definition set_cons x s := mkC (c_st s) (c_sel s) (c_req s) (c_stk s) (c_sense s) (c_cmd s) (c_status s) (c_bsy s) (c_data s) (c_rdyd s) (c_end s) (c_done s) x (c_keys s) (c_obuf s) (c_oflg s) (c_ocr s) (c_iflg s) (c_iptr s) (c_optr s) (c_ilen s) (c_home s) (c_attn s) (c_cancel s) (c_eob s) (c_tn s) (c_sent s) (c_poll s) (c_pend s).
Definition set_keys x s := mkC (c_st s) (c_sel s) (c_req s) (c_stk s) (c_sense s) (c_cmd s) (c_status s) (c_bsy s) (c_data s) (c_rdyd s) (c_end s) (c_done s) (c_cons s) x (c_obuf s) (c_oflg s) (c_ocr s) (c_iflg s) (c_iptr s) (c_optr s) (c_ilen s) (c_home s) (c_attn s) (c_cancel s) (c_eob s) (c_tn s) (c_sent s) (c_poll s) (c_pend s).
Definition set_obuf x s := mkC (c_st s) (c_sel s) (c_req s) (c_stk s) (c_sense s) (c_cmd s) (c_status s) (c_bsy s) (c_data s) (c_rdyd s) (c_end s) (c_done s) (c_cons s) (c_keys s) x (c_oflg s) (c_ocr s) (c_iflg s) (c_iptr s) (c_optr s) (c_ilen s) (c_home s) (c_attn s) (c_cancel s) (c_eob s) (c_tn s) (c_sent s) (c_poll s) (c_pend s).
Definition set_oflg x s := mkC (c_st s) (c_sel s) (c_req s) (c_stk s) (c_sense s) (c_cmd s) (c_status s) (c_bsy s) (c_data s) (c_rdyd s) (c_end s) (c_done s) (c_cons s) (c_keys s) (c_obuf s) x (c_ocr s) (c_iflg s) (c_iptr s) (c_optr s) (c_ilen s) (c_home s) (c_attn s) (c_cancel s) (c_eob s) (c_tn s) (c_sent s) (c_poll s) (c_pend s).
Definition set_ocr x s := mkC (c_st s) (c_sel s) (c_req s) (c_stk s) (c_sense s) (c_cmd s) (c_status s) (c_bsy s) (c_data s) (c_rdyd s) (c_end s) (c_done s) (c_cons s) (c_keys s) (c_obuf s) (c_oflg s) x (c_iflg s) (c_iptr s) (c_optr s) (c_ilen s) (c_home s) (c_attn s) (c_cancel s) (c_eob s) (c_tn s) (c_sent s) (c_poll s) (c_pend s).
Definition set_iflg x s := mkC (c_st s) (c_sel s) (c_req s) (c_stk s) (c_sense s) (c_cmd s) (c_status s) (c_bsy s) (c_data s) (c_rdyd s) (c_end s) (c_done s) (c_cons s) (c_keys s) (c_obuf s) (c_oflg s) (c_ocr s) x (c_iptr s) (c_optr s) (c_ilen s) (c_home s) (c_attn s) (c_cancel s) (c_eob s) (c_tn s) (c_sent s) (c_poll s) (c_pend s).
Definition set_iptr x s := mkC (c_st s) (c_sel s) (c_req s) (c_stk s) (c_sense s) (c_cmd s) (c_status s) (c_bsy s) (c_data s) (c_rdyd s) (c_end s) (c_done s) (c_cons s) (c_keys s) (c_obuf s) (c_oflg s) (c_ocr s) (c_iflg s) x (c_optr s) (c_ilen s) (c_home s) (c_attn s) (c_cancel s) (c_eob s) (c_tn s) (c_sent s) (c_poll s) (c_pend s).
Definition set_optr x s := mkC (c_st s) (c_sel s) (c_req s) (c_stk s) (c_sense s) (c_cmd s) (c_status s) (c_bsy s) (c_data s) (c_rdyd s) (c_end s) (c_done s) (c_cons s) (c_keys s) (c_obuf s) (c_oflg s) (c_ocr s) (c_iflg s) (c_iptr s) x (c_ilen s) (c_home s) (c_attn s) (c_cancel s) (c_eob s) (c_tn s) (c_sent s) (c_poll s) (c_pend s).
Definition set_ilen x s := mkC (c_st s) (c_sel s) (c_req s) (c_stk s) (c_sense s) (c_cmd s) (c_status s) (c_bsy s) (c_data s) (c_rdyd s) (c_end s) (c_done s) (c_cons s) (c_keys s) (c_obuf s) (c_oflg s) (c_ocr s) (c_iflg s) (c_iptr s) (c_optr s) x (c_home s) (c_attn s) (c_cancel s) (c_eob s) (c_tn s) (c_sent s) (c_poll s) (c_pend s).
Definition set_home x s := mkC (c_st s) (c_sel s) (c_req s) (c_stk s) (c_sense s) (c_cmd s) (c_status s) (c_bsy s) (c_data s) (c_rdyd s) (c_end s) (c_done s) (c_cons s) (c_keys s) (c_obuf s) (c_oflg s) (c_ocr s) (c_iflg s) (c_iptr s) (c_optr s) (c_ilen s) x (c_attn s) (c_cancel s) (c_eob s) (c_tn s) (c_sent s) (c_poll s) (c_pend s).
Definition set_attn x s := mkC (c_st s) (c_sel s) (c_req s) (c_stk s) (c_sense s) (c_cmd s) (c_status s) (c_bsy s) (c_data s) (c_rdyd s) (c_end s) (c_done s) (c_cons s) (c_keys s) (c_obuf s) (c_oflg s) (c_ocr s) (c_iflg s) (c_iptr s) (c_optr s) (c_ilen s) (c_home s) x (c_cancel s) (c_eob s) (c_tn s) (c_sent s) (c_poll s) (c_pend s).
Definition set_cancel x s := mkC (c_st s) (c_sel s) (c_req s) (c_stk s) (c_sense s) (c_cmd s) (c_status s) (c_bsy s) (c_data s) (c_rdyd s) (c_end s) (c_done s) (c_cons s) (c_keys s) (c_obuf s) (c_oflg s) (c_ocr s) (c_iflg s) (c_iptr s) (c_optr s) (c_ilen s) (c_home s) (c_attn s) x (c_eob s) (c_tn s) (c_sent s) (c_poll s) (c_pend s).
Definition set_eob x s := mkC (c_st s) (c_sel s) (c_req s) (c_stk s) (c_sense s) (c_cmd s) (c_status s) (c_bsy s) (c_data s) (c_rdyd s) (c_end s) (c_done s) (c_cons s) (c_keys s) (c_obuf s) (c_oflg s) (c_ocr s) (c_iflg s) (c_iptr s) (c_optr s) (c_ilen s) (c_home s) (c_attn s) (c_cancel s) x (c_tn s) (c_sent s) (c_poll s) (c_pend s).
Definition set_tn x s := mkC (c_st s) (c_sel s) (c_req s) (c_stk s) (c_sense s) (c_cmd s) (c_status s) (c_bsy s) (c_data s) (c_rdyd s) (c_end s) (c_done s) (c_cons s) (c_keys s) (c_obuf s) (c_oflg s) (c_ocr s) (c_iflg s) (c_iptr s) (c_optr s) (c_ilen s) (c_home s) (c_attn s) (c_cancel s) (c_eob s) x (c_sent s) (c_poll s) (c_pend s).
Definition set_sent x s := mkC (c_st s) (c_sel s) (c_req s) (c_stk s) (c_sense s) (c_cmd s) (c_status s) (c_bsy s) (c_data s) (c_rdyd s) (c_end s) (c_done s) (c_cons s) (c_keys s) (c_obuf s) (c_oflg s) (c_ocr s) (c_iflg s) (c_iptr s) (c_optr s) (c_ilen s) (c_home s) (c_attn s) (c_cancel s) (c_eob s) (c_tn s) x (c_poll s) (c_pend s).
Definition set_poll x s := mkC (c_st s) (c_sel s) (c_req s) (c_stk s) (c_sense s) (c_cmd s) (c_status s) (c_bsy s) (c_data s) (c_rdyd s) (c_end s) (c_done s) (c_cons s) (c_keys s) (c_obuf s) (c_oflg s) (c_ocr s) (c_iflg s) (c_iptr s) (c_optr s) (c_ilen s) (c_home s) (c_attn s) (c_cancel s) (c_eob s) (c_tn s) (c_sent s) x (c_pend s).
Definition set_pend x s := mkC (c_st s) (c_sel s) (c_req s) (c_stk s) (c_sense s) (c_cmd s) (c_status s) (c_bsy s) (c_data s) (c_rdyd s) (c_end s) (c_done s) (c_cons s) (c_keys s) (c_obuf s) (c_oflg s) (c_ocr s) (c_iflg s) (c_iptr s) (c_optr s) (c_ilen s) (c_home s) (c_attn s) (c_cancel s) (c_eob s) (c_tn s) (c_sent s) (c_poll s) x.

Definition or_sense m s := set_sense (Z.lor (c_sense s) m) s.
Definition or_status m s := set_status (Z.lor (c_status s) m) s.
Definition S_CMDREJ := 128. Definition S_INTERV := 64. Definition S_BUSCHK := 32.
Definition CED := 12. (* SNS_CHNEND|SNS_DEVEND *)
Definition CDU := 14. (* SNS_CHNEND|SNS_DEVEND|SNS_UNITCHK *)

(** model1052_func, model1052.c:780-855: the state after it and the tags_out.  The value of t_request is [t_request]. *)
Definition func (s : dev) (tin : Z) : dev * Z :=
  if c_cons s then
    let s := if bit tin 1 then mkC (c_st s) (c_sel s) (c_req s) (c_stk s) (c_sense s) (c_cmd s) (c_status s) (c_bsy s) (c_data s) (c_rdyd s) (c_end s) (c_done s)
        (c_cons s) (c_keys s) (c_obuf s) (c_oflg s) (c_ocr s) false (c_iptr s) (c_iptr s) 0 false (c_attn s) false false (c_tn s) (c_sent s) (c_poll s) (c_pend s) else s in
    let s := if bit tin 2 then set_attn false s else s in
    let s := if bit tin 128 then set_home true s else s in
    let s := if Z.land tin 80 =? 80 then set_iflg true s else s in
    let ready := (c_home s && negb (c_oflg s) && negb (c_ocr s)) || (0 <? c_ilen s) in
    let out := 16 + (if ready then 64 else 0) + (if negb (0 <? c_ilen s) && c_cancel s then 128 else 0) +
               (if negb (0 <? c_ilen s) && c_eob s then 32 else 0) + (if c_attn s then 2 else 0) in
    let s := if bit tin 4 then set_ocr true s else s in
    (s, out)
  else (s, 0).
Definition t_request (out : Z) : bool := bit out 239.

(** model1052_out, model1052.c:725-732; ebcdic_to_ascii has 256 entries. *)
Definition out_char (ch : Z) (s : dev) : res dev :=
  let* c := tab ebcdic_to_ascii (Z.land ch 255) in Ok (set_oflg true (set_obuf c s)).
(** model1052_in, model1052.c:737-750: the state, and the character if there is one; ascii_to_ebcdic has 128 entries. *)
Definition in_char (s : dev) : res (dev * option Z) :=
  if c_iflg s && (0 <? c_ilen s) then
    let* ch := tab (c_keys s) (c_optr s) in
    let* e := tab ascii_to_ebcdic ch in
    let* w := with_parity e in
    Ok (set_ilen (c_ilen s - 1) (set_optr (Z.land (c_optr s + 1) 255) s), Some w)
  else Ok (s, None).

(** poll_callback, model1052.c:129-160. *)
Definition poll_cb (s : dev) : res dev :=
  let '(s, out) := func s 0 in
  let* s :=
    if negb (bit (c_cmd s) 1) && bit out 64 then
      let* (s, x) := in_char s in
      let s := match x with Some w => set_data w s | None => s end in
      Ok (set_req true (set_rdyd true (set_data (Z.land (c_data s) 255) s)))
    else Ok s in
  let s :=
    if bit out 160 then
      let s := if bit out 128 then set_ocr true (or_status SNS_UNITEXP s) else s in
      set_req true (set_done true (set_end true s))
    else s in
  let s := if bit out 2 then set_req true s else s in
  Ok s.
(** send_callback, model1052.c:163-179; [c_pend] has this callback already taken off. *)
Definition send_cb (s : dev) : res dev :=
  let '(s, out) := func s 0 in
  if bit (c_cmd s) 1 && bit out 64 then
    let* s := out_char (c_data s) s in Ok (set_req true (set_rdyd true s))
  else Ok (set_pend (S (c_pend s)) s).

(** device_cmd, model1052.c:183-248. *)
Definition reject (s : dev) : dev :=
  set_sense S_CMDREJ (set_status CDU (set_bsy false (set_end true (set_done true (set_cmd 0 s))))).
Definition begin_cmd (c : Z) (s : dev) : dev :=
  mkC (c_st s) (c_sel s) (c_req s) false (c_sense s) c 0 (c_bsy s) (c_data s) false false false
        (c_cons s) (c_keys s) (c_obuf s) (c_oflg s) (c_ocr s) (c_iflg s) (c_iptr s) (c_optr s) (c_ilen s) (c_home s) (c_attn s) (c_cancel s) (c_eob s) (c_tn s) (c_sent s) (c_poll s) (c_pend s).
Definition device_cmd (bo : Z) (s : dev) : dev :=
  if c_bsy s then set_status SNS_BSY s
  else
    let c := Z.land bo 255 in
    let s := begin_cmd c s in
    if negb (Z.land c 240 =? 0) then reject s
    else
      let k := Z.land c 15 in
      if k =? 0 then s
      else if (k =? 1) || (k =? 9) then set_bsy true (set_rdyd true (fst (func (set_sense 0 s) 129)))
      else if k =? 10 then set_bsy true (fst (func (set_sense 0 s) 81))
      else if k =? 3 then set_done true (set_bsy true (set_end true (set_status CED (set_sense 0 s))))
      else if k =? 4 then set_bsy true (set_end true (set_rdyd true (set_data (c_sense s) s)))
      else reject s.

(** model1052_dev, model1052.c:252-669, for the device with address [a] (unit->addr & 0xff). *)
Definition reset_dev (s : dev) : dev :=
  mkC IDLE false false (c_stk s) 0 0 (c_status s) false (c_data s) false false false
        (c_cons s) (c_keys s) (c_obuf s) (c_oflg s) (c_ocr s) (c_iflg s) (c_iptr s) (c_optr s) (c_ilen s) (c_home s) (c_attn s) (c_cancel s) (c_eob s) (c_tn s) (c_sent s) (c_poll s) (c_pend s).
Definition all_done (s : dev) : dev := set_bsy false (set_cmd 0 (set_done false (set_stk false s))).
Definition dev_step (a : Z) (s : dev) (t : tags) (bo bi : Z) : res (dev * tags * Z) :=
  if negb (opro t) && negb (supo t) then (* 264-284 *)
    let t := if c_sel s then set_opri false (set_adri false (set_srvi false (set_stai false t))) else t in
    Ok (set_poll true (fst (func (reset_dev s) 3)), t, bi)
  else
  match c_st s with
  | IDLE => (* 288-352 *)
    if negb (opro t) then Ok (s, t, bi)
    else if opri t then Ok (s, (if c_req s || c_stk s then set_reqi false t else t), bi)
    else
      let t := if c_req s || c_stk s then set_reqi (negb (supo t) && negb (adro t)) t else t in
      if selo t then
        if adro t then
          if Z.land bo 255 =? a then
            let t := set_reqi false (set_selo false t) in
            let* bad := bad_parity bo in
            let s := if bad then or_sense S_BUSCHK s else s in
            if c_bsy s then
              let* w := with_parity SNS_BSY in Ok (set_st BUSY s, set_stai true t, w)
            else
              let* w := with_parity a in Ok (set_sel true (set_st INIT_SEL s), set_opri true t, w)
          else Ok (s, t, bi)
        else if negb (supo t) && (c_req s || c_stk s) then
          let* w := with_parity a in
          Ok (set_st INIT_SEL (set_sel true s), set_opri true (set_reqi false (set_selo false t)), w)
        else Ok (s, t, bi)
      else Ok (s, t, bi)
  | INIT_SEL => (* 355-364 *)
    let t := set_selo false t in
    let* w := with_parity a in
    if negb (adro t) then Ok (set_st COMMAND s, set_adri true t, w) else Ok (s, t, w)
  | COMMAND => (* 366-416 *)
    let t := set_selo false t in
    let s := set_req false s in
    let* w := with_parity a in
    if cmdo t then
      let t := set_adri false t in
      let* bad := bad_parity bo in
      if bad then
        Ok (set_st STATUS (or_sense S_BUSCHK (set_status CDU (set_end false (set_bsy false (set_done false (set_cmd 0 s)))))), t, w)
      else if c_bsy s then
        if negb (c_end s) then Ok (set_st DATA_1 s, t, w)
        else
          let s := if c_done s then fst (func (or_status CED s) 1) else s in
          Ok (set_st STATUS s, t, w)
      else
        let s := set_st STATUS s in
        let s := if negb (c_stk s) && (c_status s =? 0) then device_cmd (Z.land bo 255) s else s in
        Ok (s, t, w)
    else if adro t && negb (hldo t) then
      let s := if negb (c_end s) then or_status SNS_CHNEND (set_end true s) else s in
      Ok (set_st STATUS_WAIT s, set_opri false (set_adri false t), w)
    else Ok (s, t, w)
  | STATUS => (* 419-432 *)
    let t := set_adri false (set_selo false t) in
    let s := if c_attn s then or_status SNS_ATTN (fst (func s 2)) else s in
    let* w := with_parity (c_status s) in
    Ok (set_st STATUS_ACCEPT s, set_stai true t, w)
  | STATUS_ACCEPT => (* 435-476 *)
    let t := set_selo false t in
    let* w := with_parity (c_status s) in
    if cmdo t then Ok (set_st STATUS_WAIT (set_stk true s), set_stai false (set_opri false t), w)
    else if srvo t then
      let s := set_status 0 s in
      let t := set_stai false t in
      if c_done s || (c_cmd s =? 0) then Ok (set_st STATUS_WAIT (all_done (set_end false s)), set_opri false t, w)
      else if c_end s then Ok (set_st STATUS_WAIT s, (if negb (hldo t) then set_opri false t else t), w)
      else Ok (set_st OPR s, t, w)
    else if adro t then Ok (set_st IDLE s, set_stai false (set_opri false t), w)
    else Ok (s, t, w)
  | STATUS_WAIT => (* 479-491 *)
    let t := set_selo false t in
    if negb (cmdo t) && negb (srvo t) && negb (adro t) then
      if negb (hldo t) || negb (c_bsy s) then Ok (set_st IDLE (set_sel false s), set_opri false t, bi)
      else Ok (set_st WAIT_DEVEND s, t, bi)
    else Ok (s, t, bi)
  | BUSY => (* 494-514 *)
    let* w := with_parity SNS_BSY in
    let '(s, t) :=
      if negb (selo t) then
        let t := set_stai false t in
        let s := set_st IDLE (set_sel false s) in
        if adro t && negb (c_end s) then (set_req true (set_done true (or_status CED (set_end true (set_rdyd false s)))), t) else (s, t)
      else (s, t) in
    Ok (s, set_selo false t, w)
  | END_STATUS => (* 517-529 *)
    let t := set_selo false t in
    if cmdo t || srvo t then Ok (s, t, bi)
    else let* w := with_parity (c_status s) in Ok (set_st END_ACCEPT s, set_stai true t, w)
  | END_ACCEPT => (* 532-576 *)
    let t := set_selo false t in
    let* w := with_parity (c_status s) in
    if cmdo t then Ok (set_st STATUS_WAIT (set_stk true s), set_opri false (set_stai false t), w)
    else if srvo t then
      let s := set_status 0 s in
      if c_done s then Ok (set_st STATUS_WAIT (all_done s), set_opri false (set_stai false t), w)
      else if c_end s then Ok (set_st STATUS_WAIT s, set_opri false (set_stai false t), w)
      else if hldo t then Ok (set_st WAIT_DEVEND s, set_stai false t, w)
      else Ok (set_st STATUS_WAIT s, set_opri false (set_stai false t), w)
    else Ok (s, t, w)
  | WAIT_DEVEND => (* 579-587 *)
    let t := set_selo false t in
    Ok ((if c_done s then set_st STATUS (set_req false s) else s), t, bi)
  | OPR => (* 590-640 *)
    let s := set_req false s in
    let t := set_selo false t in
    if adro t then
      Ok (set_st IDLE (set_sel false (or_status CED (set_rdyd false (set_done true (set_end true s))))), set_opri false t, bi)
    else if c_rdyd s then Ok (set_st DATA_1 s, t, bi)
    else if c_end s || c_done s then
      let s := or_status CED s in
      let k := Z.land (c_cmd s) 15 in
      let s := if k =? 9 then fst (func s 5) else if k =? 1 then fst (func s 1) else if k =? 10 then fst (func s 80) else s in
      Ok (set_st END_STATUS s, t, bi)
    else if negb (hldo t) then Ok (set_st IDLE (set_sel false s), set_opri false t, bi)
    else Ok (s, t, bi)
  | DATA_1 => (* 642-655 *)
    let t := set_selo false t in
    if srvo t || supo t then Ok (s, t, bi)
    else let* w := with_parity (c_data s) in Ok (set_st DATA_2 s, set_srvi true t, w)
  | DATA_2 => (* 657-687 *)
    let t := set_selo false t in
    let* w := with_parity (c_data s) in
    if srvo t || cmdo t then
      let t := set_srvi false t in
      let s := set_rdyd false s in
      let* s :=
        if srvo t && bit (c_cmd s) 1 then
          let* bad := bad_parity bo in
          if bad then Ok (set_done true (set_bsy false (or_status CED (set_end true (or_status SNS_UNITCHK (or_sense S_BUSCHK s))))))
          else Ok (set_pend (S (c_pend s)) (set_data bo s))
        else Ok s in
      let s := if cmdo t then set_done true (set_end true s) else s in
      Ok (set_st OPR s, t, w)
    else Ok (s, t, w)
  end.

(** push_char, model1052.c:879-906. *)
Definition push_char (c : Z) (s : dev) : dev :=
  if c =? 12 then s
  else if c =? 27 then set_attn true s
  else if c_iflg s then
    if c =? 3 then set_cancel true s
    else if c =? 13 then set_ocr true (set_eob true s)
    else set_sent (c_sent s ++ [c]) (set_ilen (c_ilen s + 1) (set_iptr (Z.land (c_iptr s + 1) 255) (set_keys (upd (c_keys s) (Z.to_nat (c_iptr s)) c) s)))
  else s.
(** One character of input, model1052.c:987-1020. *)
Definition telnet (t : Z) (s : dev) : dev :=
  match c_tn s with
  | T_NORM => if t =? 255 then set_tn T_IAC s else push_char t s
  | T_IAC =>
    if t =? 255 then set_tn T_NORM (push_char t s)
    else if t =? 243 then set_tn T_NORM s
    else if t =? 251 then set_tn T_WILL s
    else if t =? 252 then set_tn T_WONT s
    else set_tn T_SKIP s
  | _ => set_tn T_NORM s
  end.
(** The loop over the characters received, model1052.c:984-1021: it stops when the buffer is full, what is left is lost. *)
Fixpoint receive (l : list Z) (s : dev) : dev :=
  match l with [] => s | t :: l => if c_ilen s <? 256 then receive l (telnet t s) else s end.
(** The pass through the loop of model1052_thrd, model1052.c:936-1023: a new connection may be waiting; characters may be
    waiting, at most 256, or (the empty list) the end of the connection. *)
Definition init_string := [255; 251; 34; 255; 251; 3; 255; 251; 1; 255; 251; 0; 255; 253; 0].
Definition accept (s : dev) : dev :=
  if c_cons s then s
  else set_tn T_NORM (set_ilen 0 (set_optr 0 (set_iptr 0 (set_sent (c_sent s ++ init_string) (set_cons true s))))).
(** What is sent while nobody is connected (to socket 0) is lost. *)
Definition send_out (l : list Z) (s : dev) : dev := if c_cons s then set_sent (c_sent s ++ l) s else s.
Definition flush (s : dev) : dev :=
  let s := if c_oflg s then set_oflg false (send_out (c_obuf s :: if c_obuf s =? 13 then [10] else []) s) else s in
  if c_ocr s then set_ocr false (send_out [13; 10] s) else s.
Definition net (conn : bool) (inp : option (list Z)) (s : dev) : dev :=
  let was := c_cons s in
  let s := if conn then accept s else s in
  let s := flush s in
  if was then match inp with None => s | Some [] => set_cons false s | Some l => receive l s end else s.

(** model1052_init_ctx, model1052.c:705-760 (calloc). *)
Definition fresh : dev :=
  mkC IDLE false false false 0 0 0 false 0 false false false false (repeat 0 256) 0 false false false 0 0 0 false false false false T_NORM [] false O.
