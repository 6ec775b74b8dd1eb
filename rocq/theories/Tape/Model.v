(** Model of the tape image code, /repo/src/device/tape.c and tape.h.
    Left out: tape_supply_image, tape_takeup_image and tape_init (reel pictures, floating point), and all logging
    (the log loops tape.c:606-621 and 879-897 only read buffer[x] with x + 16 < sizeof(buffer)).
    I/O on the image file never fails, except that writing to a file opened read only does. *)
From Verif Require Import Base.Bits.

(** sizeof(tape->buffer), tape.h:86. *)
Definition BS : nat := Z.to_nat 32768.

(** TAPE_STATUS_xxx, tape.h:63-71. *)
Inductive status := SErr | SOk | SEot | SBot | SEob | SParity | SMark | SWrp.

(** TYPE_xxx, tape.h:31-34; the fourth value of the two bits selects no case of any switch. *)
Inductive tfmt := TAP | E11 | P7B | NoFmt.

(** FUNC_xxx, tape.h:51-57. *)
Inductive func := FNone | FRead | FWrite | FRew | FRdback | FMark.

(** lseek(fd, p, SEEK_SET); write(fd, b, length b): the file afterwards.  A gap behind the end is zero filled. *)
Definition overwrite (f : list Z) (p : nat) (b : list Z) : list Z :=
  firstn p f ++ repeat 0 (p - length f) ++ b ++ skipn (p + length b) f.

(** The part of struct _tape_buffer (tape.h:73-87) that is the window on the file: fd (file contents, opened read
    only or not), pos, pos_buff, len_buff, dirty, buffer. *)
Record win := Win {
  w_file : list Z; w_ro : bool; w_pos : nat; w_pb : nat; w_lb : nat; w_dirty : bool; w_buf : list Z }.

(** The rest.  The int format (tape.h:31-57) is split: t_fmt = TAPE_FMT bits, t_ring = WRITE_RING, t_hi = DEN_1600,
    t_eot, t_bot, t_mark, t_func = FUNC bits, t_track9, t_sel, t_online.  t_att: file_name != NULL. *)
Record tape := Tape {
  t_win : win; t_att : bool; t_fmt : tfmt; t_ring : bool; t_hi : bool;
  t_eot : bool; t_bot : bool; t_mark : bool; t_func : func;
  t_track9 : bool; t_sel : bool; t_online : bool;
  t_frame : Z; t_lrecl : Z; t_orecl : Z; t_parity : bool; t_srec : Z }.

Definition set_win (t : tape) (w : win) : tape :=
  Tape w (t_att t) (t_fmt t) (t_ring t) (t_hi t) (t_eot t) (t_bot t) (t_mark t) (t_func t)
       (t_track9 t) (t_sel t) (t_online t) (t_frame t) (t_lrecl t) (t_orecl t) (t_parity t) (t_srec t).
Definition set_eot (t : tape) (b : bool) : tape :=
  Tape (t_win t) (t_att t) (t_fmt t) (t_ring t) (t_hi t) b (t_bot t) (t_mark t) (t_func t)
       (t_track9 t) (t_sel t) (t_online t) (t_frame t) (t_lrecl t) (t_orecl t) (t_parity t) (t_srec t).
Definition set_bot (t : tape) (b : bool) : tape :=
  Tape (t_win t) (t_att t) (t_fmt t) (t_ring t) (t_hi t) (t_eot t) b (t_mark t) (t_func t)
       (t_track9 t) (t_sel t) (t_online t) (t_frame t) (t_lrecl t) (t_orecl t) (t_parity t) (t_srec t).
Definition set_mark (t : tape) (b : bool) : tape :=
  Tape (t_win t) (t_att t) (t_fmt t) (t_ring t) (t_hi t) (t_eot t) (t_bot t) b (t_func t)
       (t_track9 t) (t_sel t) (t_online t) (t_frame t) (t_lrecl t) (t_orecl t) (t_parity t) (t_srec t).
Definition set_func (t : tape) (f : func) : tape :=
  Tape (t_win t) (t_att t) (t_fmt t) (t_ring t) (t_hi t) (t_eot t) (t_bot t) (t_mark t) f
       (t_track9 t) (t_sel t) (t_online t) (t_frame t) (t_lrecl t) (t_orecl t) (t_parity t) (t_srec t).
Definition set_frame (t : tape) (x : Z) : tape :=
  Tape (t_win t) (t_att t) (t_fmt t) (t_ring t) (t_hi t) (t_eot t) (t_bot t) (t_mark t) (t_func t)
       (t_track9 t) (t_sel t) (t_online t) x (t_lrecl t) (t_orecl t) (t_parity t) (t_srec t).
Definition set_lrecl (t : tape) (x : Z) : tape :=
  Tape (t_win t) (t_att t) (t_fmt t) (t_ring t) (t_hi t) (t_eot t) (t_bot t) (t_mark t) (t_func t)
       (t_track9 t) (t_sel t) (t_online t) (t_frame t) x (t_orecl t) (t_parity t) (t_srec t).
Definition set_orecl (t : tape) (x : Z) : tape :=
  Tape (t_win t) (t_att t) (t_fmt t) (t_ring t) (t_hi t) (t_eot t) (t_bot t) (t_mark t) (t_func t)
       (t_track9 t) (t_sel t) (t_online t) (t_frame t) (t_lrecl t) x (t_parity t) (t_srec t).
Definition set_parity (t : tape) (b : bool) : tape :=
  Tape (t_win t) (t_att t) (t_fmt t) (t_ring t) (t_hi t) (t_eot t) (t_bot t) (t_mark t) (t_func t)
       (t_track9 t) (t_sel t) (t_online t) (t_frame t) (t_lrecl t) (t_orecl t) b (t_srec t).
Definition set_srec (t : tape) (x : Z) : tape :=
  Tape (t_win t) (t_att t) (t_fmt t) (t_ring t) (t_hi t) (t_eot t) (t_bot t) (t_mark t) (t_func t)
       (t_track9 t) (t_sel t) (t_online t) (t_frame t) (t_lrecl t) (t_orecl t) (t_parity t) x.

(** tape_at_loadpt, tape_ready, tape_ring, tape_9_track, tape_is_selected, tape.c:57-88 and 111-117. *)
Definition tape_at_loadpt (t : tape) : bool := t_bot t.
Definition tape_ready (t : tape) : bool := t_att t && t_online t.
Definition tape_ring (t : tape) : bool := t_ring t.
Definition tape_9_track (t : tape) : bool := t_track9 t.
Definition tape_is_selected (t : tape) : bool := t_sel t.

(** tape_attach, tape.c:127-152, for a file that could be opened; [f] is its content.  The buffer keeps whatever
    it held.  All other format bits are cleared, including SELECTED. *)
Definition tape_attach (t : tape) (f : list Z) (ty : tfmt) (ring hi : bool) : tape :=
  Tape (Win f (negb ring) 0 0 0 false (w_buf (t_win t))) true ty ring hi
       false true false FNone (t_track9 t) false true 0 0 (t_orecl t) (t_parity t) 0.

(** if (tape->dirty) { lseek(pos); write(buffer, len_buff) ... }: [None] if the write failed.  The callers set dirty
    to 0 after it.  tape.c:165-172, 195-206, 240-251, 282-292, 319-328, 984-992. *)
Definition flush (w : win) : option win :=
  if w_dirty w then
    if w_ro w then None
    else Some (Win (overwrite (w_file w) (w_pos w) (firstn (w_lb w) (w_buf w)))
                   (w_ro w) (w_pos w) (w_pb w) (w_lb w) false (w_buf w))
  else Some w.

(** lseek(fd, p); len_buff = read(fd, buffer, sizeof(buffer)); pos_buff = 0. *)
Definition fill (w : win) (p : nat) : win :=
  let chunk := firstn BS (skipn p (w_file w)) in
  Win (w_file w) (w_ro w) p 0 (length chunk) (w_dirty w) (chunk ++ skipn (length chunk) (w_buf w)).

(** tape_detach, tape.c:160-178: the drive without a tape, and what is in the file. *)
Definition tape_detach (t : tape) : tape * list Z :=
  let w := match flush (t_win t) with
           | Some w => w
           | None => t_win t
           end in
  let w' := Win (w_file w) (w_ro w) (w_pos w) (w_pb w) (w_lb w) false (w_buf w) in
  (Tape w' false (t_fmt t) (t_ring t) (t_hi t) (t_eot t) (t_bot t) (t_mark t) (t_func t)
        (t_track9 t) (t_sel t) false (t_frame t) (t_lrecl t) (t_orecl t) (t_parity t) (t_srec t), w_file w).

(** buffer[i], out of bounds is undefined. *)
Definition buf_at (w : win) (i : nat) : res Z :=
  match nth_error (w_buf w) i with Some b => Ok b | None => UB end.

(** The common first part of tape_read_byte and tape_peek_byte, tape.c:193-218 and 238-262: move the window on if the
    end is reached.  [None]: write error; the flag tells that there is no more data. *)
Definition advance_win (w : win) : option (win * bool) :=
  if Nat.leb (w_lb w) (w_pb w) || Nat.eqb (w_lb w) 0 then
    match flush w with
    | None => None
    | Some w1 =>
      (* dirty: pos += len_buff; len_buff = 0; then in any case pos += len_buff *)
      let w2 := if w_dirty w then Win (w_file w1) (w_ro w1) (w_pos w1 + w_lb w1) (w_pb w1) 0 false (w_buf w1) else w1 in
      let w3 := fill w2 (w_pos w2 + w_lb w2) in
      Some (w3, Nat.eqb (w_lb w3) 0)
    end
  else Some (w, false).

(** tape_read_byte, tape.c:187-222.  [d] is what *data holds before the call. *)
Definition tape_read_byte (t : tape) (d : Z) : res (tape * status * Z) :=
  if negb (t_att t) then Ok (t, SErr, d) else
  match advance_win (t_win t) with
  | None => Ok (t, SErr, d)
  | Some (w, true) => Ok (set_eot (set_win t w) true, SEot, d)
  | Some (w, false) =>
    let* b := buf_at w (w_pb w) in
    Ok (set_win t (Win (w_file w) (w_ro w) (w_pos w) (S (w_pb w)) (w_lb w) (w_dirty w) (w_buf w)), SOk, b)
  end.

(** tape_peek_byte, tape.c:231-266. *)
Definition tape_peek_byte (t : tape) (d : Z) : res (tape * status * Z) :=
  if negb (t_att t) then Ok (t, SErr, d) else
  match advance_win (t_win t) with
  | None => Ok (t, SErr, d)
  | Some (w, true) => Ok (set_win t w, SEot, d)
  | Some (w, false) => let* b := buf_at w (w_pb w) in Ok (set_win t w, SOk, b)
  end.

(** tape_write_byte, tape.c:274-302.  A window that is not dirty is just emptied: pos is not advanced. *)
Definition tape_write_byte (t : tape) (data : Z) : res (tape * status) :=
  if negb (t_att t) then Ok (t, SErr) else
  let w := t_win t in
  let ow :=
    if Nat.leb BS (w_pb w) then
      match flush w with
      | None => None
      | Some w1 =>
        let p := if w_dirty w then (w_pos w + w_lb w)%nat else w_pos w in
        Some (Win (w_file w1) (w_ro w1) p 0 0 (w_dirty w1) (w_buf w1))
      end
    else Some w in
  match ow with
  | None => Ok (t, SErr)
  | Some w =>
    if Nat.ltb (w_pb w) (length (w_buf w)) then
      let pb := S (w_pb w) in
      Ok (set_win t (Win (w_file w) (w_ro w) (w_pos w) pb (if Nat.ltb (w_lb w) pb then pb else w_lb w) true
                         (upd (w_buf w) (w_pb w) data)), SOk)
    else UB
  end.

(** tape_readbk_byte, tape.c:311-361. *)
Definition tape_readbk_byte (t : tape) (d : Z) : res (tape * status * Z) :=
  if negb (t_att t) then Ok (t, SErr, d) else
  let w := t_win t in
  let step (t : tape) (w : win) : res (tape * status * Z) :=
    match w_pb w with
    | O => UB                                    (* buffer[-1] *)
    | S p =>
      let* b := buf_at w p in
      Ok (set_win t (Win (w_file w) (w_ro w) (w_pos w) p (w_lb w) (w_dirty w) (w_buf w)), SOk, b)
    end in
  if Nat.eqb (w_pb w) 0 || Nat.eqb (w_lb w) 0 then
    match flush w with
    | None => Ok (t, SErr, d)
    | Some w1 =>
      if t_bot t then Ok (set_win t w1, SBot, d)
      else if Nat.eqb (w_pos w1) 0 then
        let* b := buf_at w1 (w_pb w1) in
        Ok (set_bot (set_win t (Win (w_file w1) (w_ro w1) (w_pos w1) 0 0 (w_dirty w1) (w_buf w1))) true, SBot, b)
      else
        let w2 :=
          if Nat.ltb (w_pos w1) BS then
            let w' := fill w1 0 in
            Win (w_file w') (w_ro w') (w_pos w') (w_pos w1) (w_lb w') (w_dirty w') (w_buf w')
          else
            let w' := fill w1 (w_pos w1 - BS) in
            Win (w_file w') (w_ro w') (w_pos w') (w_lb w') (w_lb w') (w_dirty w') (w_buf w') in
        step (set_eot t false) w2
    end
  else step t w.

(** tape_write_prev, tape.c:368-392. *)
Definition tape_write_prev (t : tape) (data : Z) : res (tape * status) :=
  let w := t_win t in
  let pos := t_srec t - Z.of_nat (w_pos w) in
  if negb (t_att t) then Ok (t, SErr) else
  if (0 <=? pos) && (pos <? Z.of_nat BS) then
    let i := Z.to_nat pos in
    if Nat.ltb i (length (w_buf w)) then
      Ok (set_srec (set_win t (Win (w_file w) (w_ro w) (w_pos w) (w_pb w)
                                   (if Nat.ltb (w_lb w) i then i else w_lb w) true (upd (w_buf w) i data)))
                   (t_srec t + 1), SOk)
    else UB
  else if w_ro w || (t_srec t <? 0) then Ok (t, SErr)
  else Ok (set_srec (set_win t (Win (overwrite (w_file w) (Z.to_nat (t_srec t)) [data])
                                    (w_ro w) (w_pos w) (w_pb w) (w_lb w) (w_dirty w) (w_buf w)))
                    (t_srec t + 1), SOk).

(** The for loops writing several bytes, each checked for TAPE_STATUS_OK: tape.c:426-430, 473-477, 525-529, 910-914. *)
Fixpoint write_bytes (t : tape) (l : list Z) : res (tape * status) :=
  match l with
  | [] => Ok (t, SOk)
  | b :: r =>
    let* x := tape_write_byte t b in
    let '(t1, s) := x in
    match s with SOk => write_bytes t1 r | _ => Ok (t1, s) end
  end.
(** The same with tape_write_prev: tape.c:904-908. *)
Fixpoint write_prevs (t : tape) (l : list Z) : res (tape * status) :=
  match l with
  | [] => Ok (t, SOk)
  | b :: r =>
    let* x := tape_write_prev t b in
    let '(t1, s) := x in
    match s with SOk => write_prevs t1 r | _ => Ok (t1, s) end
  end.
(** Reading [n] bytes forward / backward, in the order read: tape.c:582-586, 862-866 / 593-597, 677-681, 927-931. *)
Fixpoint read_bytes (n : nat) (t : tape) : res (tape * status * list Z) :=
  match n with
  | O => Ok (t, SOk, [])
  | S n' =>
    let* x := tape_read_byte t 0 in
    let '(t1, s, b) := x in
    match s with
    | SOk => let* y := read_bytes n' t1 in let '(t2, s2, l) := y in Ok (t2, s2, b :: l)
    | _ => Ok (t1, s, [])
    end
  end.
Fixpoint readbk_bytes (n : nat) (t : tape) : res (tape * status * list Z) :=
  match n with
  | O => Ok (t, SOk, [])
  | S n' =>
    let* x := tape_readbk_byte t 0 in
    let '(t1, s, b) := x in
    match s with
    | SOk => let* y := readbk_bytes n' t1 in let '(t2, s2, l) := y in Ok (t2, s2, b :: l)
    | _ => Ok (t1, s, [])
    end
  end.

(** lrecl[0] | lrecl[1] << 8 | lrecl[2] << 16 | lrecl[3] << 24, tape.c:587, 682, 867, 932. *)
Definition word_of (l : list Z) : Z :=
  match l with
  | [a; b; c; d] => Z.lor (Z.lor (Z.lor a (Z.shiftl b 8)) (Z.shiftl c 16)) (Z.shiftl d 24)
  | _ => 0
  end.
(** tape.c:899-902. *)
Definition bytes_of (n : Z) : list Z :=
  [Z.land n 255; Z.land (Z.shiftr n 8) 255; Z.land (Z.shiftr n 16) 255; Z.land (Z.shiftr n 24) 255].

(** uint32_t arithmetic. *)
Definition u32 (x : Z) : Z := x mod 4294967296.

(** IRG_MASK|BCD_TM, tape.h:60-61. *)
Definition p7b_mark : Z := 143.

(** tape->srec = tape->pos + tape->pos_buff. *)
Definition cursor (w : win) : nat := (w_pos w + w_pb w)%nat.

(** tape_write_start, tape.c:406-441. *)
Definition tape_write_start (t : tape) : res (tape * status) :=
  if negb (t_att t) then Ok (t, SErr)
  else if negb (t_ring t) then Ok (t, SWrp)
  else
    let t := set_srec (set_parity (set_mark (set_bot t false) false) false) (Z.of_nat (cursor (t_win t))) in
    let* x := match t_fmt t with TAP | E11 => write_bytes t [0; 0; 0; 0] | _ => Ok (t, SOk) end in
    let '(t1, s) := x in
    match s with
    | SOk => Ok (set_func (set_orecl (set_lrecl t1 0) 0) FWrite, SOk)
    | _ => Ok (t1, s)
    end.

(** tape_write_mark, tape.c:454-493; tape_erase_gap, tape.c:506-545, is the same code. *)
Definition tape_write_mark (t : tape) : res (tape * status) :=
  if negb (t_att t) then Ok (t, SErr)
  else if negb (t_ring t) then Ok (t, SWrp)
  else
    let t := set_srec (set_mark (set_bot t false) false) (Z.of_nat (cursor (t_win t))) in
    let* x := match t_fmt t with
              | TAP | E11 => write_bytes t [0; 0; 0; 0]
              | P7B => write_bytes t [p7b_mark]
              | NoFmt => Ok (t, SOk)
              end in
    let '(t1, s) := x in
    match s with
    | SOk => Ok (set_func (set_frame (set_orecl (set_lrecl t1 0) 0) (t_frame t1 + 1200)) FMark, SOk)
    | _ => Ok (t1, s)
    end.
Definition tape_erase_gap (t : tape) : res (tape * status) := tape_write_mark t.

(** tape_read_forw, tape.c:558-650. *)
Definition tape_read_forw (t : tape) : res (tape * status) :=
  if negb (t_att t) then Ok (t, SErr) else
  let t := set_mark (set_bot (set_parity t false) false) false in
  if t_eot t then Ok (t, SEot) else
  let t := set_func t FRead in
  match t_fmt t with
  | TAP | E11 =>
    let t := set_srec t (Z.of_nat (cursor (t_win t))) in
    let* x := read_bytes 4 t in
    let '(t1, s, l) := x in
    match s with
    | SOk =>
      let n := word_of l in
      let t2 := set_lrecl t1 n in
      if n =? 4294967295 then
        let t3 := set_eot t2 true in
        let* y := readbk_bytes 4 t3 in
        let '(t4, s4, _) := y in
        match s4 with SOk => Ok (t4, SEot) | _ => Ok (t4, s4) end
      else if n =? 0 then Ok (set_mark (set_frame t2 (t_frame t2 + 1200)) true, SMark)
      else Ok (set_lrecl (set_orecl t2 n) 0, SOk)
    | _ => Ok (t1, s)
    end
  | P7B =>
    let t := set_srec t (Z.of_nat (cursor (t_win t))) in
    let* x := tape_peek_byte t 0 in
    let '(t1, s, b) := x in
    let t2 := set_lrecl t1 2 in
    match s with
    | SOk =>
      if b =? p7b_mark then
        let* y := tape_read_byte t2 b in
        let '(t3, s3, _) := y in
        match s3 with
        | SErr => Ok (t3, SErr)
        | _ =>
          let t4 := set_mark (set_frame t3 (t_frame t3 + 1200)) true in
          Ok (t4, match s3 with SEot => SEot | _ => SMark end)
        end
      else Ok (set_lrecl t2 0, SOk)
    | _ => Ok (t2, s)
    end
  | NoFmt => Ok (t, SOk)
  end.

(** tape_read_back, tape.c:656-722. *)
Definition tape_read_back (t : tape) : res (tape * status) :=
  if negb (t_att t) then Ok (t, SErr) else
  let t := set_mark (set_eot t false) false in
  if t_bot t then Ok (t, SBot) else
  let t := set_func (set_parity t false) FRdback in
  match t_fmt t with
  | TAP | E11 =>
    let t := set_srec t (Z.of_nat (cursor (t_win t))) in
    let* x := readbk_bytes 4 t in
    let '(t1, s, l) := x in
    match s with
    | SOk =>
      let n := word_of (rev l) in
      let t2 := set_lrecl t1 n in
      if n =? 4294967295 then Ok (t2, SOk)
      else
        let* t3 := match t_fmt t with
                   | TAP => if Z.odd n then
                              let* y := tape_readbk_byte t2 0 in let '(t', _, _) := y in Ok t'
                            else Ok t2
                   | _ => Ok t2
                   end in
        if n =? 0 then Ok (set_mark (set_frame t3 (t_frame t3 - 1200)) true, SMark)
        else Ok (set_orecl t3 n, SOk)
    | _ => Ok (t1, s)
    end
  | P7B =>
    let t := set_srec t (Z.of_nat (cursor (t_win t))) in
    let* x := tape_readbk_byte t 0 in
    let '(t1, s, b) := x in
    match s with
    | SOk =>
      let t2 := set_lrecl t1 0 in
      if b =? p7b_mark then
        Ok (set_mark (set_lrecl (set_frame (set_srec t2 (Z.of_nat (cursor (t_win t2)))) (t_frame t2 - 1200)) 2) true, SMark)
      else
        let* y := tape_read_byte t2 b in
        let '(t3, _, _) := y in Ok (t3, SOk)
    | _ => Ok (t1, s)
    end
  | NoFmt => Ok (t, SOk)
  end.

(** data & IRG_MASK, and data & ~IRG_MASK, for the uint8_t pointed to (tape.c:773, 778, 787, 792). *)
Definition irg (d : Z) : bool := negb (Z.land d 128 =? 0).
Definition no_irg (d : Z) : Z := Z.land d 127.

(** tape_read_frame, tape.c:733-800. *)
Definition tape_read_frame (t : tape) (d : Z) : res (tape * status * Z) :=
  let l := if t_hi t then 1 else 2 in
  if negb (t_att t) then Ok (t, SErr, d)
  else if t_mark t then Ok (t, SMark, d)
  else
    match t_fmt t, t_func t with
    | TAP, FRead | E11, FRead =>
      if t_orecl t <=? t_lrecl t then Ok (t, SEob, d)
      else
        let* x := tape_read_byte t d in
        let '(t1, s, b) := x in
        Ok (set_frame (set_lrecl t1 (u32 (t_lrecl t1 + 1))) (t_frame t1 + l), s, b)
    | TAP, FRdback | E11, FRdback =>
      if t_lrecl t =? 0 then Ok (t, SEob, d)
      else
        let* x := tape_readbk_byte t d in
        let '(t1, s, b) := x in
        Ok (set_frame (set_lrecl t1 (u32 (t_lrecl t1 - 1))) (t_frame t1 - l), s, b)
    | P7B, FRead =>
      if t_lrecl t =? 2 then Ok (t, SEob, d)
      else
        let* x := tape_read_byte t d in
        let '(t1, s, b) := x in
        if (t_lrecl t1 =? 1) && irg b then
          let* y := tape_readbk_byte t1 b in
          let '(t2, _, b2) := y in
          Ok (set_lrecl t2 2, SEob, b2)
        else Ok (set_frame (set_lrecl t1 1) (t_frame t1 + l), s, no_irg b)
    | P7B, FRdback =>
      if t_lrecl t =? 2 then Ok (t, SEob, d)
      else
        let* x := tape_readbk_byte t d in
        let '(t1, s, b) := x in
        Ok (set_frame (set_lrecl t1 (if irg b then 2 else 1)) (t_frame t1 - l), s, no_irg b)
    | _, _ => Ok (set_frame t (t_frame t + l), SErr, d)
    end.

(** tape_write_frame, tape.c:806-818.  There is no check of the write ring. *)
Definition tape_write_frame (t : tape) (data : Z) : res (tape * status) :=
  if negb (t_att t) then Ok (t, SErr) else
  let data := match t_fmt t with P7B => if t_lrecl t =? 0 then Z.lor data 128 else data | _ => data end in
  let t := set_frame (set_lrecl t (u32 (t_lrecl t + 1))) (t_frame t + (if t_hi t then 1 else 2)) in
  tape_write_byte t data.

(** while (tape->lrecl < tape->orecl) tape_read_frame, tape.c:854-856. *)
Fixpoint skip_forw (fuel : nat) (t : tape) (d : Z) : res (tape * Z) :=
  if t_lrecl t <? t_orecl t then
    match fuel with
    | O => NoFuel
    | S fuel' => let* x := tape_read_frame t d in let '(t1, _, d1) := x in skip_forw fuel' t1 d1
    end
  else Ok (t, d).
(** while (tape->lrecl > 0) tape_read_frame, tape.c:922-925. *)
Fixpoint skip_back (fuel : nat) (t : tape) (d : Z) : res (tape * Z) :=
  if 0 <? t_lrecl t then
    match fuel with
    | O => NoFuel
    | S fuel' => let* x := tape_read_frame t d in let '(t1, _, d1) := x in skip_back fuel' t1 d1
    end
  else Ok (t, d).
(** while (tape->lrecl != 2) { r = tape_read_frame; if (r == FILE_ERROR) return r; }, tape.c:955-959 and 963-967. *)
Fixpoint skip_p7b (fuel : nat) (t : tape) (d : Z) : res (tape * status) :=
  if t_lrecl t =? 2 then Ok (t, SOk)
  else
    match fuel with
    | O => NoFuel
    | S fuel' =>
      let* x := tape_read_frame t d in
      let '(t1, s, d1) := x in
      match s with SErr => Ok (t1, SErr) | _ => skip_p7b fuel' t1 d1 end
    end.

(** tape.c:972-976. *)
Definition finish_end (t : tape) : tape * status :=
  (set_func t FNone, if t_parity t then SParity else SOk).

(** tape_finish_rec, tape.c:830-977.  [junk] is the uninitialised lrecl[0]. *)
Definition tape_finish_rec (fuel : nat) (junk : Z) (t : tape) : res (tape * status) :=
  if negb (t_att t) then Ok (t, SErr) else
  match t_fmt t with
  | TAP | E11 =>
    if t_mark t then Ok (set_mark (set_func t FNone) false, SOk)
    else
      match t_func t with
      | FRead =>
        let* x := skip_forw fuel t junk in
        let '(t1, _) := x in
        let* t2 := match t_fmt t1 with
                   | TAP => if Z.odd (t_orecl t1) then
                              let* y := tape_read_byte t1 0 in let '(t', _, _) := y in Ok t'
                            else Ok t1
                   | _ => Ok t1
                   end in
        let* y := read_bytes 4 t2 in
        let '(t3, s, l) := y in
        match s with
        | SOk => Ok (finish_end (set_lrecl t3 (word_of l)))
        | _ => Ok (t3, s)
        end
      | FWrite =>
        let* t1 := match t_fmt t with
                   | TAP => if Z.odd (t_lrecl t) then
                              let* y := tape_write_byte t 0 in let '(t', _) := y in Ok t'
                            else Ok t
                   | _ => Ok t
                   end in
        let l := bytes_of (t_lrecl t1) in
        let* y := write_prevs t1 l in
        let '(t2, s2) := y in
        match s2 with
        | SOk =>
          let* z := write_bytes t2 l in
          let '(t3, s3) := z in
          match s3 with SOk => Ok (finish_end t3) | _ => Ok (t3, s3) end
        | _ => Ok (t2, s2)
        end
      | FRdback =>
        let* x := skip_back fuel t junk in
        let '(t1, _) := x in
        let* y := readbk_bytes 4 t1 in
        let '(t2, s, l) := y in
        match s with
        | SOk => Ok (finish_end (set_lrecl t2 (word_of (rev l))))
        | _ => Ok (t2, s)
        end
      | _ => Ok (finish_end t)
      end
  | P7B =>
    if t_mark t then Ok (finish_end (set_mark t false))
    else
      match t_func t with
      | FRead | FRdback =>
        let* x := skip_p7b fuel t junk in
        let '(t1, s) := x in
        match s with SErr => Ok (t1, SErr) | _ => Ok (finish_end t1) end
      | _ => Ok (finish_end t)
      end
  | NoFmt => Ok (finish_end t)
  end.

(** tape_start_rewind, tape.c:980-997. *)
Definition tape_start_rewind (t : tape) : tape * status :=
  match flush (t_win t) with
  | None => (t, SErr)
  | Some w => (set_win t (Win (w_file w) (w_ro w) 0 0 0 false (w_buf w)), SOk)
  end.

(** tape_rewind_frames, tape.c:1003-1018. *)
Definition tape_rewind_frames (t : tape) (n : Z) : tape * status :=
  if negb (t_att t) then (t, SErr)
  else if t_frame t <? n then (set_bot (set_frame t 0) true, SBot)
  else (set_frame t (t_frame t - n), SOk).
