(** What the tape properties talk about, independent of the window code. *)
From Verif Require Import Base.Bits Tape.Model.

(** The bytes on the tape: the file, with the not yet written window laid over it. *)
Definition content (w : win) : list Z :=
  if w_dirty w then overwrite (w_file w) (w_pos w) (firstn (w_lb w) (w_buf w)) else w_file w.
Definition bytes_on (t : tape) : list Z := content (t_win t).
(** The byte of the tape that is next under the head. *)
Definition at_byte (t : tape) : nat := cursor (t_win t).

(** Consistency of the window, kept by every operation. *)
Definition win_ok (w : win) : Prop :=
  length (w_buf w) = BS /\ (w_pb w <= w_lb w)%nat /\ (w_lb w <= BS)%nat /\ (w_pos w <= length (w_file w))%nat /\
  (w_dirty w = false -> firstn (w_lb w) (w_buf w) = firstn (w_lb w) (skipn (w_pos w) (w_file w))).
(** The window can be written back. *)
Definition can_flush (w : win) : Prop := w_ro w = true -> w_dirty w = false.
(** The one window state in which writing goes wrong: just read up to the very end of a full window. *)
Definition write_ready (w : win) : Prop := w_dirty w = true \/ (w_pb w < BS)%nat.

(** ** The image formats *)
Inductive item := Rec (data : list Z) | Mark.

Definition le32 (n : Z) : list Z := [n mod 256; n / 256 mod 256; n / 65536 mod 256; n / 16777216 mod 256].
(** SIMH .tap: length, data, a filler byte if the length is odd, length.  E11: the same without the filler.
    P7B: the first character of a block is marked with bit 0x80; a tape mark is the single character 0x0f. *)
Definition encode1 (f : tfmt) (x : item) : list Z :=
  match f, x with
  | TAP, Rec d => le32 (Z.of_nat (length d)) ++ d ++ (if Nat.odd (length d) then [0] else []) ++ le32 (Z.of_nat (length d))
  | E11, Rec d => le32 (Z.of_nat (length d)) ++ d ++ le32 (Z.of_nat (length d))
  | TAP, Mark | E11, Mark => [0; 0; 0; 0]
  | P7B, Rec (c :: r) => Z.lor c 128 :: r
  | P7B, Rec [] => []
  | P7B, Mark => [143]
  | NoFmt, _ => []
  end.
Definition encode (f : tfmt) (l : list item) : list Z := flat_map (encode1 f) l.

(** Records each format can hold: bytes, not empty, a length that fits; for P7B seven-bit characters and not starting
    with the tape mark character. *)
Definition good_item (f : tfmt) (x : item) : Prop :=
  match x with
  | Mark => True
  | Rec d => d <> [] /\
    match f with
    | TAP | E11 => Forall (fun b => 0 <= b < 256) d /\ Z.of_nat (length d) < 4294967295
    | P7B => Forall (fun b => 0 <= b < 128) d /\ hd 0 d <> 15
    | NoFmt => False
    end
  end.

(** ** How a control unit uses the tape *)

(** Write one block: start, frames, finish. *)
Fixpoint write_frames (t : tape) (d : list Z) : res (tape * status) :=
  match d with
  | [] => Ok (t, SOk)
  | b :: r =>
    let* x := tape_write_frame t b in
    let '(t1, s) := x in
    match s with SOk => write_frames t1 r | _ => Ok (t1, s) end
  end.
Definition write_item (t : tape) (x : item) : res (tape * status) :=
  let* y := match x with Rec _ => tape_write_start t | Mark => tape_write_mark t end in
  let '(t1, s1) := y in
  match s1 with
  | SOk =>
    let* z := write_frames t1 (match x with Rec d => d | Mark => [] end) in
    let '(t2, s2) := z in
    match s2 with SOk => tape_finish_rec 0 0 t2 | _ => Ok (t2, s2) end
  | _ => Ok (t1, s1)
  end.
Fixpoint write_items (t : tape) (l : list item) : res (tape * status) :=
  match l with
  | [] => Ok (t, SOk)
  | x :: r =>
    let* y := write_item t x in
    let '(t1, s) := y in
    match s with SOk => write_items t1 r | _ => Ok (t1, s) end
  end.

(** Read frames until the first status that is not "frame read", at most [n] of them: the data, newest last. *)
Fixpoint read_frames (n : nat) (t : tape) : res (tape * status * list Z) :=
  match n with
  | O => Ok (t, SOk, [])
  | S n' =>
    let* x := tape_read_frame t 0 in
    let '(t1, s, b) := x in
    match s with
    | SOk => let* y := read_frames n' t1 in let '(t2, s2, l) := y in Ok (t2, s2, b :: l)
    | _ => Ok (t1, s, [])
    end
  end.

(** What reading one block forward delivers. *)
Inductive got := GItem (x : item) | GEnd | GStart | GPart (d : list Z) (s : status) | GOther (s : status).

(** Read a block forward (back = false) or backward, at most [n] frames of it, and finish it. *)
Definition read_item (n : nat) (junk : Z) (back : bool) (t : tape) : res (tape * got) :=
  let* y := if back then tape_read_back t else tape_read_forw t in
  let '(t1, s1) := y in
  match s1 with
  | SOk =>
    let* z := read_frames n t1 in
    let '(t2, s2, d) := z in
    let* u := tape_finish_rec n junk t2 in
    let '(t3, s3) := u in
    Ok (t3, match s2, s3 with SEob, SOk => GItem (Rec d) | SEob, _ => GPart d s3 | _, _ => GPart d s2 end)
  | SMark =>
    let* u := tape_finish_rec n junk t1 in
    let '(t3, s3) := u in
    Ok (t3, match s3 with SOk => GItem Mark | _ => GOther s3 end)
  | SEot => Ok (t1, GEnd)
  | SBot => Ok (t1, GStart)
  | _ => Ok (t1, GOther s1)
  end.
Fixpoint read_items (k n : nat) (junk : Z) (back : bool) (t : tape) : res (tape * list got) :=
  match k with
  | O => Ok (t, [])
  | S k' =>
    let* y := read_item n junk back t in
    let '(t1, g) := y in
    let* z := read_items k' n junk back t1 in
    let '(t2, l) := z in Ok (t2, g :: l)
  end.

(** Rewind: start, then [k] steps of [n] frames. *)
Fixpoint rewind_steps (k : nat) (n : Z) (t : tape) : tape * status :=
  match k with
  | O => (t, SOk)
  | S k' => let '(t1, s) := tape_rewind_frames t n in
            match s with SOk => rewind_steps k' n t1 | _ => (t1, s) end
  end.

(** A drive as calloc leaves it (model2415.c:1357), with a tape put on. *)
Definition new_drive : tape :=
  Tape (Win [] false 0 0 0 false (repeat 0 BS)) false TAP false false false false false FNone false false false 0 0 0 false 0.

(** ** Arbitrary use: any sequence of calls of the interface *)
Inductive call :=
| CWriteStart | CWriteMark | CEraseGap | CWriteFrame (b : Z)
| CReadForw | CReadBack | CReadFrame (d : Z) | CFinish (fuel : nat) (junk : Z)
| CRewind | CRewindFrames (n : Z).

Definition no_data (r : res (tape * status)) : res (tape * status * Z) :=
  let* x := r in let '(t, s) := x in Ok (t, s, 0).
Definition do_call (t : tape) (c : call) : res (tape * status * Z) :=
  match c with
  | CWriteStart => no_data (tape_write_start t)
  | CWriteMark => no_data (tape_write_mark t)
  | CEraseGap => no_data (tape_erase_gap t)
  | CWriteFrame b => no_data (tape_write_frame t b)
  | CReadForw => no_data (tape_read_forw t)
  | CReadBack => no_data (tape_read_back t)
  | CReadFrame d => tape_read_frame t d
  | CFinish fuel junk => no_data (tape_finish_rec fuel junk t)
  | CRewind => no_data (Ok (tape_start_rewind t))
  | CRewindFrames n => no_data (Ok (tape_rewind_frames t n))
  end.
Fixpoint do_calls (t : tape) (l : list call) : res (tape * list status) :=
  match l with
  | [] => Ok (t, [])
  | c :: r =>
    let* x := do_call t c in
    let '(t1, s, _) := x in
    let* y := do_calls t1 r in
    let '(t2, ss) := y in Ok (t2, s :: ss)
  end.

Definition is_write (c : call) : bool :=
  match c with CWriteStart | CWriteMark | CEraseGap | CWriteFrame _ => true | _ => false end.

(** ** Going up and down a tape block by block, and what it delivers if the tape is the list [l] *)
Definition mirror (x : item) : item := match x with Rec d => Rec (rev d) | Mark => Mark end.

Fixpoint read_walk (dirs : list bool) (n : nat) (junk : Z) (t : tape) : res (tape * list got) :=
  match dirs with
  | [] => Ok (t, [])
  | back :: r =>
    let* y := read_item n junk back t in
    let '(t1, g) := y in
    let* z := read_walk r n junk t1 in
    let '(t2, l) := z in Ok (t2, g :: l)
  end.
Fixpoint walk_on (l : list item) (i : nat) (dirs : list bool) : list got :=
  match dirs with
  | [] => []
  | false :: r => match nth_error l i with
                  | Some x => GItem x :: walk_on l (S i) r
                  | None => GEnd :: walk_on l i r
                  end
  | true :: r => match i with
                 | O => GStart :: walk_on l 0 r
                 | S j => match nth_error l j with
                          | Some x => GItem (mirror x) :: walk_on l j r
                          | None => []
                          end
                 end
  end.

(** ** Single bytes: forward, backward and without moving *)
Inductive move := MForw | MBack | MPeek.
Definition do_move (m : move) (t : tape) : res (tape * status * Z) :=
  match m with
  | MForw => tape_read_byte t 0
  | MBack => tape_readbk_byte t 0
  | MPeek => tape_peek_byte t 0
  end.
(** Stops at either end of the tape. *)
Fixpoint do_moves (l : list move) (t : tape) : res (tape * list (status * Z)) :=
  match l with
  | [] => Ok (t, [])
  | m :: r =>
    let* x := do_move m t in
    let '(t1, s, b) := x in
    match s with
    | SOk => let* y := do_moves r t1 in let '(t2, out) := y in Ok (t2, (s, b) :: out)
    | _ => Ok (t1, [(s, 0)])
    end
  end.
Fixpoint moves_on (c : list Z) (k : nat) (l : list move) : list (status * Z) :=
  match l with
  | [] => []
  | MForw :: r => match nth_error c k with Some b => (SOk, b) :: moves_on c (S k) r | None => [(SEot, 0)] end
  | MPeek :: r => match nth_error c k with Some b => (SOk, b) :: moves_on c k r | None => [(SEot, 0)] end
  | MBack :: r => match k with
                  | O => [(SBot, 0)]
                  | S j => match nth_error c j with Some b => (SOk, b) :: moves_on c j r | None => [] end
                  end
  end.
