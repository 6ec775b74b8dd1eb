(** What the card properties talk about, independent of how the deck code works. *)
From Verif Require Import Base.Bits Card.Tables Card.Model.

(** A physical card: 80 columns of 12 punch positions. *)
Definition is_card (img : card) : Prop := length img = 80%nat /\ Forall (fun h => 0 <= h < 4096) img.

(** The cards still in the hopper, next one first. *)
Definition unread (c : ctx) : list card := firstn (c_cards c - c_pos c) (skipn (c_pos c) (c_images c)).

(** Contexts every sequence of calls keeps to. *)
Definition ctx_ok (c : ctx) : Prop := (c_pos c <= c_cards c <= length (c_images c))%nat.

(** Column h is the 029 punch code of the ASCII character a. *)
Definition punch_of (h a : Z) : Prop := 32 <= a < 127 /\ tab ascii_to_hol_029 a = Ok h.
Definition printable_card (img : card) : Prop := is_card img /\ Forall (fun h => exists a, punch_of h a) img.

(** Column h is the punch code of some EBCDIC byte. *)
Definition ebcdic_card (img : card) : Prop :=
  is_card img /\ Forall (fun h => exists e, 0 <= e < 256 /\ tab ebcdic_to_hol_table e = Ok h) img.

(** The 80 characters of a line the reader takes for a control line: ~ and nothing else, or ~raw, ~eor, ~eof, ~eoi
    in either case at the start. *)
Definition keyword (r : list Z) : bool :=
  match r with
  | a :: b :: c :: _ =>
    match tolower a, tolower b, tolower c with
    | 114, 97, 119 | 101, 111, 114 | 101, 111, 102 | 101, 111, 105 => true
    | _, _, _ => false
    end
  | _ => false
  end.
Definition control_line (t : list Z) : bool :=
  match t with
  | p :: r => (p =? 126) && (forallb (fun c => c =? 32) r || keyword r)
  | [] => false
  end.
(** The characters punched in the card are no control line. *)
Definition text_safe (img : card) : Prop := forall t, Forall2 punch_of img t -> control_line t = false.

(** Only column one is punched. *)
Definition only_first_column (img : card) : Prop := exists h, h <> 0 /\ img = h :: repeat 0 79.

(** Not one of the cards that are punched in column one only, other than the end-of-record (7), end-of-file (13)
    and end-of-information (15) cards. *)
Definition octal_safe (img : card) : Prop :=
  only_first_column img -> nth_error img 0 = Some 7 \/ nth_error img 0 = Some 13 \/ nth_error img 0 = Some 15.

(** Bytes. *)
Definition bytes_ok (l : list Z) : Prop := Forall (fun b => 0 <= b < 256) l.

(** A context with an empty hopper in mode [m]. *)
Definition empty_ctx (m : mode) : ctx := Ctx m [] 0 0 None.

(** Saving the deck [deck] in mode [m]: what save_deck leaves in the file. *)
Definition saved (m : mode) (deck : list card) (bytes : list Z) : Prop :=
  forall c, ctx_ok c -> c_mode c = m -> unread c = deck ->
  exists c', save_deck c = Ok c' /\ close_deck c' = (Ctx m (c_images c') (c_cards c') (c_pos c') None, Some bytes) /\
    hopper_size c' = 0.

(** Loading a file with these bytes in mode [m] puts [deck] behind the cards in the hopper, whatever is in
    the uninitialised memory. *)
Definition loads (m : mode) (bytes : list Z) (deck : list card) : Prop :=
  forall c junk fuel, ctx_ok c -> c_mode c = m -> (length bytes < fuel)%nat ->
  exists c', read_deck fuel junk c bytes = Ok c' /\ ctx_ok c' /\ c_mode c' = m /\ unread c' = unread c ++ deck.

(** Cards AUTO mode writes faithfully, as text if all columns are printable and in octal otherwise. *)
Definition auto_safe (img : card) : Prop :=
  (printable_card img /\ text_safe img) \/ (is_card img /\ ~ Forall (fun h => exists a, punch_of h a) img /\ octal_safe img).

(** Column one is not punched, or holds a printable character whose ASCII code is a multiple of 16:
    blank 0 @ P ` p. *)
Definition starts_low (img : card) : Prop := exists h r a, img = h :: r /\ punch_of h a /\ a mod 16 = 0.

(** Files read_deck can take in each mode: ASCII text, any bytes for EBCDIC, for binary an empty file or
    at least one card. *)
Definition file_ok (m : mode) (bytes : list Z) : Prop :=
  match m with
  | MText | MOctal => Forall (fun b => 0 <= b < 128) bytes
  | MEbcdic => bytes_ok bytes
  | MBin => bytes = [] \/ (160 <= length bytes)%nat
  | MAuto => False
  end.
(** The last, never written byte of the buffer is not a carriage return. *)
Definition junk_ok (junk : nat -> nat -> Z) : Prop := forall k, junk k (Z.to_nat (buf_size - 1)) <> 13.

(** *** Histories of hopper operations *)
Inductive cop := ORead | OLoad (fuel : nat) (junk : nat -> nat -> Z) (bytes : list Z) | OBlank (n : Z) | OStack (img : card).

(** Running them on the model; the second component is what the reads returned. *)
Definition cstep (c : ctx) (o : cop) : res (ctx * list (option card)) :=
  match o with
  | ORead => let* r := read_card c in let '(c', x) := r in Ok (c', [x])
  | OLoad fuel junk bytes => let* c' := read_deck fuel junk c bytes in Ok (c', [])
  | OBlank n => let* c' := blank_deck c n in Ok (c', [])
  | OStack img => let* c' := stack_card c img in Ok (c', [])
  end.
Fixpoint crun (c : ctx) (os : list cop) : res (ctx * list (option card)) :=
  match os with
  | [] => Ok (c, [])
  | o :: r =>
    let* x := cstep c o in let '(c', out) := x in
    let* y := crun c' r in let '(c'', outs) := y in Ok (c'', out ++ outs)
  end.

(** The queue specification.  The cards a file holds are those loading it into an empty hopper gives;
    reading a card with a column outside 0..4095 is undefined. *)
Definition sstep (m : mode) (q : list card) (o : cop) : res (list card * list (option card)) :=
  match o with
  | ORead =>
    match q with
    | [] => Ok ([], [None])
    | img :: r => if forallb (fun h => (0 <=? h) && (h <? 4096)) img then Ok (r, [Some img]) else UB
    end
  | OLoad fuel junk bytes => let* c := read_deck fuel junk (empty_ctx m) bytes in Ok (q ++ unread c, [])
  | OBlank n => Ok (q ++ repeat blank (Z.to_nat n), [])
  | OStack img => Ok (q ++ [img], [])
  end.
Fixpoint srun (m : mode) (q : list card) (os : list cop) : res (list card * list (option card)) :=
  match os with
  | [] => Ok (q, [])
  | o :: r =>
    let* x := sstep m q o in let '(q', out) := x in
    let* y := srun m q' r in let '(q'', outs) := y in Ok (q'', out ++ outs)
  end.

(** Stacking a list of cards one after the other. *)
Fixpoint stack_all (c : ctx) (deck : list card) : res ctx :=
  match deck with
  | [] => Ok c
  | img :: r => let* c1 := stack_card c img in stack_all c1 r
  end.

(** Saving a deck from a fresh context: the bytes of the file; and loading a file into an empty hopper, the
    memory behind the buffer contents being zero. *)
Definition file_of (m : mode) (deck : list card) : res (list Z) :=
  let* c := save_deck (Ctx m deck (length deck) 0 None) in
  match snd (close_deck c) with Some b => Ok b | None => UB end.
Definition deck_in (m : mode) (bytes : list Z) : res (list card) :=
  let* c := read_deck (S (length bytes)) (fun _ _ => 0) (empty_ctx m) bytes in Ok (unread c).
