(** What a configuration line means. *)
From Verif Require Export Conf.Model.

(** Options as they are written: a name; name=value; name="value". *)
Inductive item := Name (n : list Z) | Plain (n v : list Z) | Quoted (n v : list Z).
Definition text (i : item) : list Z :=
  match i with Name n => n | Plain n v => n ++ [61] ++ v | Quoted n v => n ++ [61; 34] ++ v ++ [34] end.

Definition ascii (c : Z) : Prop := 0 <= c < 128.
Definition word_char (c : Z) : Prop := ascii c /\ (is_alnum c = true \/ c = 45).
Definition blank (c : Z) : Prop := is_space c = true.
(** A value without quotes ends at the next blank; it does not start with a quote or with the sign of a comment. *)
Definition plain_char (c : Z) : Prop := ascii c /\ c <> 0 /\ ~ blank c.
Definition starts (P : Z -> Prop) (l : list Z) : Prop := match l with c :: _ => P c | [] => False end.

Definition name_ok (n : list Z) : Prop := Forall word_char n /\ (0 < length n < 20)%nat.
Definition item_ok (i : item) : Prop :=
  match i with
  | Name n => name_ok n
  | Plain n v => name_ok n /\ Forall plain_char v /\ starts (fun c => c <> 34 /\ c <> 35) v /\ (length v < 1024)%nat
  | Quoted n v => name_ok n /\ Forall (fun c => c <> 34) v /\ (length v < 1024)%nat
  end.

(** What is delivered: the name, and a value without quotes, in capital letters. *)
Definition meaning (o : option_t) (i : item) : option_t :=
  let mk n f v := mkOpt n f (o_model o) (o_dash o) (o_slash o) (o_addr o) v in
  match i with
  | Name n => mk (map to_upper n) 0 []
  | Plain n v => mk (map to_upper n) 1 (map to_upper v)
  | Quoted n v => mk (map to_upper n) 1 v
  end.

(** A line: each option behind at least one blank; at the end blanks and the end of the line or a comment. *)
Definition blanks (l : list Z) : Prop := Forall blank l.
Definition line (items : list (list Z * item)) : list Z := concat (map (fun x => fst x ++ text (snd x)) items).
Definition items_ok (items : list (list Z * item)) : Prop :=
  Forall (fun x => blanks (fst x) /\ fst x <> [] /\ item_ok (snd x)) items.
Definition end_ok (t : list Z) (e : Z) : Prop := blanks t /\ (e = 0 \/ (e = 35 /\ t <> [])).

(** Numbers. *)
Definition dec_value (l : list Z) : Z := fold_left (fun v c => v * 10 + (c - 48)) l 0.
Definition hex_digit (c : Z) : Z := if is_digit c then c - 48 else if is_lower c then c - 87 else c - 55.
Definition hex_number (l : list Z) : Z := fold_left (fun v c => v * 16 + hex_digit c) l 0.
Definition digits (l : list Z) : Prop := Forall (fun c => is_digit c = true) l.
Definition xdigits (l : list Z) : Prop := Forall (fun c => is_xdigit c = true) l.

(** Words of a line that fit into the buffers of the scanner. *)
Definition short_words (l : list Z) : Prop := forall a w b, l = a ++ w ++ b -> Forall word_char w -> (length w < 20)%nat.
Definition tame (l : list Z) : Prop :=
  Forall (fun c => ascii c /\ c <> 34 /\ c <> 0) l /\ (length l < 1024)%nat /\ short_words l.

(** The first word of a line: digits and perhaps one letter (the model), or a word that starts with a letter; then perhaps
    a minus with a number and a slash with a number. *)
Inductive unit_word : list Z -> list Z -> option Z -> Prop :=
| Digits n : digits n -> n <> [] -> unit_word n n None
| Letter n c : digits n -> n <> [] -> is_alpha c = true -> unit_word (n ++ [c]) n (Some c)
| Word c n : is_alpha c = true -> Forall (fun x => is_alnum x = true) n -> unit_word (c :: n) (c :: n) None.
Definition part (sign : Z) (n : option (list Z)) : list Z := match n with Some l => sign :: l | None => [] end.
Definition part_ok (n : option (list Z)) : Prop :=
  match n with Some l => digits l /\ (length l < 20)%nat /\ dec_value l <= 2147483647 | None => True end.
Definition part_value (n : option (list Z)) (old : Z) : Z := match n with Some l => dec_value l | None => old end.
Definition part_flag (n : option (list Z)) (f : Z) : Z := match n with Some _ => f | None => 0 end.

(** Lines with nothing but words, blanks, equal signs and comments. *)
Definition start_char (c : Z) : Prop := word_char c \/ blank c \/ c = 61 \/ c = 35.

(** Not undefined. *)
Definition noub {A} (r : res A) : Prop := match r with UB => False | _ => True end.
