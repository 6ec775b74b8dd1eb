(** Model of the card deck code, /repo/src/device/card.c and card.h. *)
From Verif Require Import Base.Bits Card.Tables.

(** ** Code conversion *)

(** hol_to_ebcdic_table as filled by init_card_context, card.c:883-893 (the message to stderr for a double
    entry is left out; the entry is kept as in the code). *)
Definition h2e_step (t : list Z) (i : nat) : list Z :=
  match nth_error ebcdic_to_hol_table i with
  | None => t
  | Some h =>
    match nth_error t (Z.to_nat h) with
    | Some 256 => upd t (Z.to_nat h) (Z.of_nat i)
    | _ => t
    end
  end.
Definition hol_to_ebcdic_table : list Z :=
  Eval vm_compute in fold_left h2e_step (seq 0 256) (repeat 256 (Z.to_nat 4096)).

(** hol_to_ascii_table, card.c:894-901. *)
Definition h2a_step (t : list Z) (i : nat) : list Z :=
  match nth_error ascii_to_hol_029 i with
  | None => t
  | Some h => if Z.land h 61440 =? 0 then upd t (Z.to_nat h) (Z.of_nat i) else t
  end.
Definition hol_to_ascii_table : list Z :=
  Eval vm_compute in fold_left h2a_step (seq 0 128) (repeat 255 (Z.to_nat 4096)).

(** ebcdic_to_hol, card.c:240-244. *)
Definition ebcdic_to_hol (e : Z) : res Z := tab ebcdic_to_hol_table e.
(** hol_to_ebcdic, card.c:247-251. *)
Definition hol_to_ebcdic (h : Z) : res Z := tab hol_to_ebcdic_table h.
(** hol_to_ascii, card.c:254-258. *)
Definition hol_to_ascii (h : Z) : res Z := tab hol_to_ascii_table h.
(** ascii_to_hol, card.c:261-265. *)
Definition ascii_to_hol (a : Z) : res Z := tab ascii_to_hol_ebcdic a.

(** ** Cards *)

(** A card image: uint16_t[80]. *)
Notation card := (list Z).
Definition blank : card := repeat 0 80.

(** MODE_xxx, card.h:33-37. *)
Inductive mode := MAuto | MText | MEbcdic | MBin | MOctal.

(** struct _card_buffer, card.c:316-320: [d] is buffer[0 .. len-1]; what lies behind (stale or uninitialised
    bytes, up to the 8692 bytes of the array) is an arbitrary function [junk].  Reading behind the array
    is undefined. *)
Definition buf_size : Z := 8692.
Definition rd (d : list Z) (junk : nat -> Z) (i : nat) : res Z :=
  match nth_error d i with
  | Some b => Ok b
  | None => if Z.of_nat i <? buf_size then Ok (junk i) else UB
  end.

(** tolower (C locale). *)
Definition tolower (c : Z) : Z := if (65 <=? c) && (c <=? 90) then c + 32 else c.

(** _cmpcard, card.c:324-336.  [s] is the three-letter keyword. *)
Definition cmpcard (d : list Z) (junk : nat -> Z) (s : Z * Z * Z) : res bool :=
  let '(s0, s1, s2) := s in
  let* p0 := rd d junk 0 in
  if negb (p0 =? 126) then Ok false else
  let* p1 := rd d junk 1 in
  if negb (tolower p1 =? s0) then Ok false else
  let* p2 := rd d junk 2 in
  if negb (tolower p2 =? s1) then Ok false else
  let* p3 := rd d junk 3 in
  Ok (tolower p3 =? s2).

Definition kw_raw : Z * Z * Z := (114, 97, 119).
Definition kw_eor : Z * Z * Z := (101, 111, 114).
Definition kw_eof : Z * Z * Z := (101, 111, 102).
Definition kw_eoi : Z * Z * Z := (101, 111, 105).

(** (col | 7) + 1. *)
Definition tab_stop (col : Z) : Z := Z.lor col 7 + 1.

(** The '~' scan, card.c:374-395.  [r] is the rest of the buffer from index [i].  [Some i]: f is still 1.
    A line end sets col to 80 and the for loop still increments i. *)
Fixpoint tilde_loop (r : list Z) (col : Z) (i : nat) : option nat :=
  match r with
  | [] => Some i
  | c :: r' =>
    if 80 <=? col then Some i
    else if (c =? 10) || (c =? 0) || (c =? 13) then Some (S i)
    else if c =? 32 then tilde_loop r' col (S i)
    else if c =? 9 then tilde_loop r' (tab_stop col) (S i)
    else None
  end.

(** Set a column of a card image (uint16_t). *)
Definition setcol (img : card) (col : Z) (v : Z) : card := upd img (Z.to_nat col) (v mod 65536).
Definition getcol (img : card) (col : Z) : Z := match nth_error img (Z.to_nat col) with Some v => v | None => 0 end.

(** The ~raw scan, card.c:397-413. *)
Fixpoint raw_loop (r : list Z) (img : card) (col j : Z) (i : nat) : card * nat :=
  match r with
  | [] => (img, i)
  | c :: r' =>
    if 80 <=? col then (img, i)
    else if (48 <=? c) && (c <=? 55) then
      let img' := setcol img col (Z.lor (Z.shiftl (getcol img col) 3) (c - 48)) in
      if j + 1 =? 4 then raw_loop r' img' (col + 1) 0 (S i) else raw_loop r' img' col (j + 1) (S i)
    else if (c =? 10) || (c =? 13) then
      raw_loop r' (setcol img 0 (Z.lor (getcol img 0) 4095)) col j (S i)
    else (img, i)
  end.

(** The text scan, card.c:427-448.  c is a (signed) char: a byte above 127 indexes ascii_to_hol_029 out of
    bounds. *)
Fixpoint text_loop (r : list Z) (img : card) (col : Z) (i : nat) : res (card * nat) :=
  match r with
  | [] => Ok (img, i)
  | c :: r' =>
    if 80 <=? col then Ok (img, i)
    else if (c =? 0) || (c =? 13) then text_loop r' img col (S i)
    else if c =? 9 then text_loop r' img (tab_stop col) (S i)
    else if c =? 10 then Ok (img, i)
    else
      let* h := tab ascii_to_hol_029 c in
      let h' := if negb (Z.land h 61440 =? 0) then 4095 else h in
      text_loop r' (setcol img col (Z.land h' 4095)) (col + 1) (S i)
  end.

(** Scan to the end of the line, card.c:453-456. *)
Fixpoint eol_loop (r : list Z) (i : nat) : nat :=
  match r with
  | [] => i
  | c :: r' => if (c =? 10) || (c =? 13) then i else eol_loop r' (S i)
  end.

(** card.c:450-461. *)
Definition end_card (d : list Z) (junk : nat -> Z) (i : nat) : res nat :=
  let i1 := eol_loop (skipn i d) i in
  let* b1 := rd d junk i1 in
  let i2 := if b1 =? 13 then S i1 else i1 in
  let* b2 := rd d junk i2 in
  Ok (if b2 =? 10 then S i2 else i2).

(** MODE_TEXT of _parse_card, card.c:370-462. *)
Definition parse_text (d : list Z) (junk : nat -> Z) : res (card * nat) :=
  let* p0 := rd d junk 0 in
  let special := if p0 =? 126 then tilde_loop (skipn 1 d) 1 1 else None in
  match special with
  | Some i => let* n := end_card d junk i in Ok (blank, n)
  | None =>
    let* raw := cmpcard d junk kw_raw in
    if raw : bool then
      let '(img, i) := raw_loop (skipn 4 d) blank 0 0 4 in
      let* n := end_card d junk i in Ok (img, n)
    else
    let* eor := cmpcard d junk kw_eor in
    if eor : bool then let* n := end_card d junk 4 in Ok (setcol blank 0 7, n) else
    let* eof := cmpcard d junk kw_eof in
    if eof : bool then let* n := end_card d junk 4 in Ok (setcol blank 0 13, n) else
    let* eoi := cmpcard d junk kw_eoi in
    if eoi : bool then let* n := end_card d junk 4 in Ok (setcol blank 0 15, n) else
    let* r := text_loop d blank 0 0 in
    let '(img, i) := r in
    let* n := end_card d junk i in Ok (img, n)
  end.

(** The even bytes of the first n pairs: or of buffer[0], buffer[2], ... while i < 160 and i < len,
    card.c:353-355.  Returns the or and the final i. *)
Fixpoint auto_scan (n : nat) (d : list Z) (i : Z) (t : Z) : Z * Z :=
  match n with
  | O => (t, i)
  | S n' =>
    match d with
    | [] => (t, i)
    | b :: r => auto_scan n' (skipn 1 r) (i + 2) (Z.lor t b)
    end
  end.

(** Mode selection, card.c:350-367. *)
Definition pick_mode (m : mode) (d : list Z) : mode :=
  match m with
  | MAuto => let '(t, i) := auto_scan 80 d 0 0 in
             if (Z.land t 15 =? 0) && (i =? 160) then MBin else MText
  | _ => m
  end.

(** MODE_BIN, card.c:464-481: 160 bytes, two per column. *)
Fixpoint bin_loop (n : nat) (d : list Z) : option (card * Z) :=
  match n with
  | O => Some ([], 0)
  | S n' =>
    match d with
    | a :: b :: r =>
      match bin_loop n' r with
      | Some (img, t) => Some (Z.lor (Z.land (Z.shiftr a 4) 15) (Z.shiftl (Z.land b 255) 4) :: img, Z.lor a t)
      | None => None
      end
    | _ => None
    end
  end.

(** MODE_EBCDIC, card.c:483-492. *)
Fixpoint ebc_loop (n : nat) (d : list Z) (img : card) (i : nat) : res (card * nat) :=
  match n with
  | O => Ok (img, i)
  | S n' =>
    match d with
    | [] => Ok (img, i)
    | b :: r => let* h := ebcdic_to_hol b in ebc_loop n' r (upd img i h) (S i)
    end
  end.

(** _parse_card, card.c:338-496.  The second component is the new buf->size; [None]: the function returned
    without setting it (card.c:467-470). *)
Definition parse_card (m : mode) (d : list Z) (junk : nat -> Z) : res (card * option nat) :=
  match pick_mode m d with
  | MBin =>
    if Z.of_nat (length d) <? 160 then Ok (upd blank 0 4095, None)
    else match bin_loop 80 d with
         | Some (img, t) => Ok (if negb (Z.land t 15 =? 0) then upd img 0 4095 else img, Some 160%nat)
         | None => UB
         end
  | MEbcdic =>
    let img0 := if Z.of_nat (length d) <? 80 then upd blank 0 4095 else blank in
    let* r := ebc_loop 80 d img0 0 in
    let '(img, i) := r in Ok (img, Some i)
  | _ =>
    let* r := parse_text d junk in
    let '(img, i) := r in Ok (img, Some i)
  end.

(** ** Punching *)

(** One column to ASCII, '?' if there is none: card.c:540-543. *)
Definition punch_char (h : Z) : res Z :=
  let* a := hol_to_ascii h in Ok (if a =? 255 then 63 else a).

Fixpoint mapres {A B} (f : A -> res B) (l : list A) : res (list B) :=
  match l with
  | [] => Ok []
  | x :: r => let* y := f x in let* ys := mapres f r in Ok (y :: ys)
  end.

(** Trim trailing blanks, keeping at least the first character: card.c:547-549. *)
Fixpoint drop_blanks (l : list Z) : list Z :=
  match l with [] => [] | c :: r => if c =? 32 then drop_blanks r else l end.
Definition trim (l : list Z) : list Z :=
  match l with [] => [] | c :: r => c :: rev (drop_blanks (rev r)) end.

Definition punch_text (img : card) : res (list Z) :=
  let* t := mapres punch_char img in Ok (trim t ++ [10]).

(** Four octal digits of a column, card.c:587-593. *)
Definition oct4 (col : Z) : list Z :=
  [Z.land (Z.shiftr col 9) 7 + 48; Z.land (Z.shiftr col 6) 7 + 48; Z.land (Z.shiftr col 3) 7 + 48; Z.land col 7 + 48].

(** Index of the last non-zero column, -1 if there is none: card.c:556-559. *)
Fixpoint last_punched (l : list Z) (i : Z) (best : Z) : Z :=
  match l with [] => best | c :: r => last_punched r (i + 1) (if c =? 0 then best else i) end.

(** MODE_OCTAL, card.c:553-596. *)
Definition punch_octal (img : card) : list Z :=
  let raw := [114; 97; 119] ++ flat_map oct4 img ++ [10] in
  if last_punched img 0 (-1) =? 0 then
    let c0 := getcol img 0 in
    if c0 =? 7 then [126; 101; 111; 114; 10]
    else if c0 =? 13 then [126; 101; 111; 102; 10]
    else if c0 =? 15 then [126; 101; 111; 105; 10]
    else [126; 101; 111] ++ raw
  else [126] ++ raw.

(** MODE_BIN, card.c:598-605. *)
Definition punch_bin (img : card) : list Z :=
  flat_map (fun col => [Z.shiftl (Z.land col 15) 4; Z.shiftr (Z.land col 4080) 4]) img.

(** MODE_EBCDIC, card.c:607-614. *)
Definition punch_ebcdic (img : card) : res (list Z) :=
  mapres (fun col => let* e := hol_to_ebcdic col in Ok (Z.land 255 e)) img.

(** What _punch_card writes for one card, card.c:505-618. *)
Definition punch_bytes (m : mode) (img : card) : res (list Z) :=
  match m with
  | MAuto =>
    let* t := mapres hol_to_ascii img in
    if existsb (fun a => a =? 255) t then Ok (punch_octal img) else punch_text img
  | MText => punch_text img
  | MOctal => Ok (punch_octal img)
  | MBin => Ok (punch_bin img)
  | MEbcdic => punch_ebcdic img
  end.

(** ** The deck *)

(** struct card_context, card.h:47-56.  c_images has hopper_size entries; c_file is what has been written
    to the open output file, if there is one. *)
Record ctx := Ctx { c_mode : mode; c_images : list card; c_cards : nat; c_pos : nat; c_file : option (list Z) }.

(** DECK_SIZE, card.h:45. *)
Definition deck_size : nat := 1000.

(** init_card_context, card.c:907-916. *)
Definition init_ctx : ctx := Ctx MAuto [] 0 0 None.

(** hopper_size(), card.c:268-274, and stack_size(), card.c:277-283 (non-NULL context). *)
Definition hopper_size (c : ctx) : Z := Z.of_nat (c_cards c) - Z.of_nat (c_pos c).
Definition stack_size (c : ctx) : Z := Z.of_nat (c_cards c).

(** read_card, card.c:286-313.  [None]: hopper empty (returns 0). *)
Definition read_card (c : ctx) : res (ctx * option card) :=
  if Nat.leb (c_cards c) (c_pos c) then Ok (c, None)
  else match nth_error (c_images c) (c_pos c) with
       | None => UB
       | Some img =>
         let* _ := mapres hol_to_ebcdic img in   (* the log loop indexes the table, card.c:298-302 *)
         Ok (Ctx (c_mode c) (c_images c) (c_cards c) (S (c_pos c)) (c_file c), Some img)
       end.

(** Move the unread cards to the front, card.c:651-660 and 750-759. *)
Fixpoint move_down (n : nat) (imgs : list card) (i pos : nat) : res (list card) :=
  match n with
  | O => Ok imgs
  | S n' =>
    match nth_error imgs pos with
    | None => UB
    | Some x => move_down n' (upd imgs i x) (S i) (S pos)
    end
  end.
Definition compact (c : ctx) : res ctx :=
  if Nat.ltb 0 (c_pos c) then
    let n := (c_cards c - c_pos c)%nat in
    let* imgs := move_down n (c_images c) 0 (c_pos c) in
    Ok (Ctx (c_mode c) imgs n 0 (c_file c))
  else Ok c.

(** Grow the array by DECK_SIZE if it is full, card.c:674-688 (realloc assumed to succeed).  The memset
    clears everything from hopper_cards on, i.e. just the new part. *)
Definition grow (c : ctx) : ctx :=
  if Nat.leb (length (c_images c)) (c_cards c) then
    Ctx (c_mode c)
        (firstn (c_cards c) (c_images c ++ repeat blank deck_size)
         ++ repeat blank (length (c_images c) + deck_size - c_cards c))
        (c_cards c) (c_pos c) (c_file c)
  else c.

(** Store a card image in the slot hopper_cards and count it. *)
Definition put (c : ctx) (img : card) : res ctx :=
  if Nat.ltb (c_cards c) (length (c_images c)) then
    Ok (Ctx (c_mode c) (upd (c_images c) (c_cards c) img) (S (c_cards c)) (c_pos c) (c_file c))
  else UB.

(** The do-while of read_deck, card.c:662-701.  [d]: buffer contents; [rest]: the part of the file not yet
    read; [eof]: feof; [sz]: buf.size as left by the previous card; [k]: number of cards done, selects the
    junk behind the buffer contents.  buf.len may go negative: then the loop ends like with 0. *)
Fixpoint deck_loop (fuel : nat) (junk : nat -> nat -> Z) (k : nat) (c : ctx)
    (d rest : list Z) (eof : bool) (sz : nat) : res ctx :=
  match fuel with
  | O => NoFuel
  | S fuel' =>
    let '(d, rest, eof) :=
      if (Z.of_nat (length d) <? 500) && negb eof then
        (d ++ firstn (Z.to_nat 8192) rest, skipn (Z.to_nat 8192) rest, Z.of_nat (length rest) <? 8192)
      else (d, rest, eof) in
    let c1 := grow c in
    let* r := parse_card (c_mode c) d (junk k) in
    let '(img, osz) := r in
    let sz' := match osz with Some s => s | None => sz end in
    let* c2 := put c1 img in
    let d' := skipn sz' d in
    match d' with
    | [] => Ok c2
    | _ => deck_loop fuel' junk (S k) c2 d' rest eof sz'
    end
  end.

(** read_deck, card.c:621-707, for a file that could be opened; [bytes] is its content.  buffer[0] is set
    to 0 before anything is read (card.c:633); the other bytes are arbitrary. *)
Definition read_deck (fuel : nat) (junk : nat -> nat -> Z) (c : ctx) (bytes : list Z) : res ctx :=
  let* c1 := compact (Ctx (c_mode c) (c_images c) (c_cards c) (c_pos c) None) in
  let junk0 k i := match k, i with O, O => 0 | _, _ => junk k i end in
  deck_loop fuel junk0 0 c1 [] bytes false 0.

(** _punch_card on slot [slot], card.c:505-618. *)
Definition punch_slot (c : ctx) (slot : nat) : res ctx :=
  match nth_error (c_images c) slot with
  | None => UB
  | Some img =>
    let* b := punch_bytes (c_mode c) img in
    match c_file c with
    | None => UB
    | Some f => Ok (Ctx (c_mode c) (c_images c) (c_cards c) (S (c_pos c)) (Some (f ++ b)))
    end
  end.

(** while (hopper_pos < hopper_cards) _punch_card(.., hopper_pos), card.c:811-815 and 843-845. *)
Fixpoint flush_loop (n : nat) (c : ctx) : res ctx :=
  match n with
  | O => Ok c
  | S n' => let* c1 := punch_slot c (c_pos c) in flush_loop n' c1
  end.
Definition flush_cards (c : ctx) : res ctx := flush_loop (c_cards c - c_pos c) c.

(** The same loop in empty_cards, card.c:717-720, which passes slot hopper_cards each time. *)
Fixpoint empty_loop (n : nat) (c : ctx) : res ctx :=
  match n with
  | O => Ok c
  | S n' => let* c1 := punch_slot c (c_cards c) in empty_loop n' c1
  end.

(** empty_cards, card.c:713-741. *)
Definition empty_cards (c : ctx) : res ctx :=
  let* c1 := match c_file c with
             | Some _ => empty_loop (c_cards c - c_pos c) c
             | None => Ok c
             end in
  let imgs := if Nat.ltb deck_size (length (c_images c1)) then repeat blank deck_size else c_images c1 in
  Ok (Ctx (c_mode c1) imgs 0 0 (c_file c1)).

(** blank_deck, card.c:746-783. *)
Fixpoint blank_loop (n : nat) (c : ctx) : res ctx :=
  match n with
  | O => Ok c
  | S n' => let* c1 := put (grow c) blank in blank_loop n' c1
  end.
Definition blank_deck (c : ctx) (n : Z) : res ctx :=
  let* c1 := compact c in blank_loop (Z.to_nat n) c1.

(** stack_card, card.c:789-819. *)
Definition stack_card (c : ctx) (img : card) : res ctx :=
  let* c1 := put (grow c) img in
  match c_file c1 with
  | Some _ => flush_cards c1
  | None => Ok c1
  end.

(** save_deck, card.c:822-848, for a file that could be created. *)
Definition save_deck (c : ctx) : res ctx :=
  flush_cards (Ctx (c_mode c) (c_images c) (c_cards c) (c_pos c) (Some [])).

(** close_deck, card.c:851-863: returns the context without the file, and the file contents. *)
Definition close_deck (c : ctx) : ctx * option (list Z) :=
  (Ctx (c_mode c) (c_images c) (c_cards c) (c_pos c) None, c_file c).
