(** What a configuration file means. *)
From Verif Require Export Conf.Spec Conf.Load.

(** The entry with a name: the first one. *)
Definition same (a b : list Z) : bool := if list_eq_dec Z.eq_dec a b then true else false.
Definition lookup (devs : list entry) (n : list Z) : option entry := find (fun e => same (e_name e) n) devs.

(** What is behind the first word: an address (where it ends, and its value), or none. *)
Inductive field : list Z -> option (nat * Z) -> Prop :=
| Address sp l c r : blanks sp -> xdigits l -> (0 < length l < 20)%nat -> hex_number l <= 2147483647 -> ascii c -> is_xdigit c = false ->
    field (sp ++ l ++ c :: r) (Some (length (sp ++ l), hex_number l mod 65536))
| NoAddress sp c r : blanks sp -> ascii c -> ~ blank c -> is_xdigit c = false -> field (sp ++ c :: r) None.

(** A first word: blanks, the unit with its letter, minus and number, slash and number. *)
Record head := mkHead { h_sp : list Z; h_w : list Z; h_n : list Z; h_md : option Z; h_d : option (list Z); h_s : option (list Z) }.
Definition head_ok (h : head) : Prop :=
  blanks (h_sp h) /\ unit_word (h_w h) (h_n h) (h_md h) /\ (length (h_w h) < 20)%nat /\ part_ok (h_d h) /\ part_ok (h_s h).
Definition head_text (h : head) : list Z := h_sp h ++ h_w h ++ part 45 (h_d h) ++ part 47 (h_s h).
(** A character that ends the first word. *)
Definition ends (l : list Z) : Prop := exists c r, l = c :: r /\ ascii c /\ is_alnum c = false /\ c <> 45 /\ c <> 47.
(** The options it gives; what the word does not say is what was there before. *)
Definition given (h : head) (o : option_t) : option_t :=
  mkOpt (map to_upper (h_n h)) (part_flag (h_d h) 1 + part_flag (h_s h) 2)
    (match h_md h with Some x => Some (to_upper x) | None => o_model o end)
    (part_value (h_d h) (o_dash o)) (part_value (h_s h) (o_slash o)) (o_addr o) (o_string o).
Definition at_addr (o : option_t) (a : Z) : option_t :=
  mkOpt (o_opt o) (o_flags o) (o_model o) (o_dash o) (o_slash o) a (o_string o).

(** The create function k is called once, with these arguments; its answer decides. *)
Definition asked {W} (create : creator W) (msg : list Z -> event) (k : nat) (m : mem) (p : nat) (o : option_t) (w : W) : res (left W) :=
  match create k m p o w with
  | Ok (w', o', true) => Ok (w', o', [Create k p o], true)
  | Ok (w', o', false) => Ok (w', o', [Create k p o; msg (o_opt o')], false)
  | UB => UB
  | NoFuel => NoFuel
  end.

(** What a line with this first word does. *)
Definition obeyed {W} (create : creator W) (devs : list entry) (h : head) (rest : list Z) (f : option (nat * Z)) (o : option_t) (w : W) : res (left W) :=
  let m := head_text h ++ rest in
  let n := map to_upper (h_n h) in
  let o1 := given h o in
  let p := length (head_text h) in
  match lookup devs n with
  | None => Ok (w, o1, [Unknown n], true)
  | Some e =>
    match e_type e with
    | 0 => Ok (w, o1, [], true)
    | 1 => asked create Unable (e_create e) m p o1 w
    | 2 | 3 | 4 => match f with
                   | Some (k, a) => asked create Unable (e_create e) m (p + k) (at_addr o1 a) w
                   | None => Ok (w, o1, [Missing n], false)
                   end
    | 5 => asked create UnableLog (e_create e) m p o1 w
    | t => Ok (w, o1, [BadType t], true)
    end
  end.

(** A file: lines, each with its newline; perhaps a last one without. *)
Definition joined (ls : list (list Z)) (last : list Z) : list Z := concat (map (fun l => l ++ [10]) ls) ++ last.
Definition short (l : list Z) : Prop := Forall (fun c => c <> 10) l /\ (length l <= 1022)%nat.
(** The lines as the scanner gets them. *)
Definition given_lines (ls : list (list Z)) (last : list Z) : list (list Z) :=
  map (fun l => l ++ [10]) ls ++ match last with [] => [] | _ => [last] end.
(** One line after the other, until one fails. *)
Fixpoint in_order {W} (create : creator W) (devs : list entry) (ls : list (list Z)) (buf : list Z) (o : option_t) (w : W) : res (left W) :=
  match ls with
  | [] => Ok (w, o, [], true)
  | l :: r =>
    match load_line create devs (l ++ [0] ++ skipn (length l + 1) buf) o w with
    | Ok (w1, o1, ev, true) =>
      match in_order create devs r (l ++ [0] ++ skipn (length l + 1) buf) o1 w1 with
      | Ok (w2, o2, ev2, ok) => Ok (w2, o2, ev ++ ev2, ok)
      | x => x
      end
    | x => x
    end
  end.
Definition then_closed {W} (r : res (left W)) : res (left W) :=
  match r with Ok (w, o, ev, ok) => Ok (w, o, ev ++ [Closed], ok) | x => x end.

(** What counts as an error that stops the load. *)
Definition fatal (e : event) : bool := match e with Missing _ | Unable _ | UnableLog _ | NoFile => true | _ => false end.

(** The memory a letter stands for. *)
Definition memory (letter : Z) : Z := 2 ^ (11 + (letter - 65)).

From Coq Require Import String Ascii.
Definition chars (s : string) : list Z := List.map (fun c => Z.of_nat (nat_of_ascii c)) (list_ascii_of_string s).

Definition port_name : list Z := chars "PORT".

(** PORT=number as an option, and options that are not that. *)
Inductive port_item : item -> option Z -> Prop :=
| PortPlain n v : map to_upper n = port_name -> digits v -> v <> [] -> dec_value v <= 2147483647 -> port_item (Plain n v) (Some (dec_value v mod 65536))
| PortQuoted n v : map to_upper n = port_name -> digits v -> v <> [] -> dec_value v <= 2147483647 -> port_item (Quoted n v) (Some (dec_value v mod 65536))
| OtherName n : port_item (Name n) None
| OtherPlain n v : map to_upper n <> port_name -> port_item (Plain n v) None
| OtherQuoted n v : map to_upper n <> port_name -> port_item (Quoted n v) None
| Letters n v c q : map to_upper n = port_name -> v = c :: q -> is_digit c = false -> port_item (Plain n v) None.
(** The port that the options ask for; None if one of them is not a port. *)
Fixpoint port_of (vs : list (option Z)) (port : Z) : option Z :=
  match vs with [] => Some port | Some v :: r => port_of r v | None :: _ => None end.

(** The words of a LOGLEVEL line: the word at place k stands for the bit k. *)
Definition level_names : list (list Z) := map chars
  ["INFO"; "WARN"; "ERROR"; "TRACE"; "ITRACE"; "MICRO"; "REG"; "MEM"; "MPXCHN"; "SELCHN"; "DEVICE"; "CONSOLE"; "TAPE"; "DISK"; "CARD"; "DMICRO"; "DREG"; "EVENT"; "FREG"]%string.
Definition level_word (i : item) (n : list Z) : Prop := exists x, i = Name x /\ map to_upper x = n.
Definition level_ok (i : item) : Prop := exists n, level_word i n /\ In n level_names.
