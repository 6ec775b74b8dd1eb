(** Model of /repo/src/conf.c: the scanner for configuration lines.
    The memory that line_ptr points into is a list of bytes (with everything behind the end of the line that belongs to
    the same object), line_ptr is a place in it, and reading behind its end is [UB].  Characters are bytes 0..255; char is
    signed, so calling isspace and its like with a byte of 128 or more is [UB].
    A buffer that is filled from the front is the list of the characters in front of p; a write behind the end of the
    buffer is [UB].  Signed overflow is [UB].
    Not modelled: messages.  load_config and load_line are in Conf/Load.v. *)
From Verif Require Export Base.Bits.
From Coq Require Export Lia Bool.
Open Scope Z_scope.
Import ListNotations.

Definition mem := list Z.
Definition rd (m : mem) (p : nat) : res Z := match nth_error m p with Some c => Ok c | None => UB end.

(** <ctype.h> in the C locale. *)
Definition is_digit (c : Z) : bool := (48 <=? c) && (c <=? 57).
Definition is_lower (c : Z) : bool := (97 <=? c) && (c <=? 122).
Definition is_upper (c : Z) : bool := (65 <=? c) && (c <=? 90).
Definition is_alpha (c : Z) : bool := is_lower c || is_upper c.
Definition is_alnum (c : Z) : bool := is_alpha c || is_digit c.
Definition is_xdigit (c : Z) : bool := is_digit c || ((97 <=? c) && (c <=? 102)) || ((65 <=? c) && (c <=? 70)).
Definition is_space (c : Z) : bool := (c =? 32) || ((9 <=? c) && (c <=? 13)).
Definition to_upper (c : Z) : Z := if is_lower c then c - 32 else c.
Definition ctype (f : Z -> bool) (c : Z) : res bool := if c <? 128 then Ok (f c) else UB.

(** The characters in front of the first zero. *)
Fixpoint cstr (l : list Z) : list Z := match l with [] => [] | c :: r => if c =? 0 then [] else c :: cstr r end.

(** struct _option, conf.h:33-41.  [o_model] is None as long as nothing was stored there: the callers do not initialize the
    structure. *)
Record option_t := mkOpt {
  o_opt : list Z; o_flags : Z; o_model : option Z; o_dash : Z; o_slash : Z; o_addr : Z; o_string : list Z }.

(** Storing one more character, or the final zero, in a buffer of the size [n]. *)
Definition push (n : nat) (l : list Z) (c : Z) : res (list Z) := if (length l <? n)%nat then Ok (l ++ [c]) else UB.
Definition close (n : nat) (l : list Z) : res (list Z) := if (length l <? n)%nat then Ok l else UB.

(** while (isspace( *line_ptr)) line_ptr++; the loop ends at the end of the memory at the latest. *)
Fixpoint skip_from (l : mem) (p : nat) : res nat :=
  match l with
  | [] => UB
  | c :: r => let* b := ctype is_space c in if b then skip_from r (S p) else Ok p
  end.
Definition skip_space (m : mem) (p : nat) : res nat := skip_from (skipn p m) p.
(** Comment or end of line, conf.c:111, 186, 226, 273. *)
Definition at_end (c : Z) : bool := (c =? 35) || (c =? 10) || (c =? 0).

(** *** get_model, conf.c:99-173 *)

(** Which buffer p points into. *)
Inductive which := InOpt | InTemp1 | InTemp2.
Record words := mkWords { w_opt : list Z; w_t1 : list Z; w_t2 : list Z; w_at : which; w_flags : Z }.
Definition w_cur (w : words) : list Z := match w_at w with InOpt => w_opt w | InTemp1 => w_t1 w | InTemp2 => w_t2 w end.
Definition w_put (w : words) (l : list Z) : words :=
  match w_at w with
  | InOpt => mkWords l (w_t1 w) (w_t2 w) (w_at w) (w_flags w)
  | InTemp1 => mkWords (w_opt w) l (w_t2 w) (w_at w) (w_flags w)
  | InTemp2 => mkWords (w_opt w) (w_t1 w) l (w_at w) (w_flags w)
  end.

(** The loop, conf.c:116-140, on the rest [l] of the memory; [len] is the number of characters in the current buffer. *)
Fixpoint words_from (l : mem) (p : nat) (w : words) : res (nat * words) :=
  if (length (w_cur w) <? 20)%nat then
    match l with
    | [] => UB
    | c :: r =>
      let* an := ctype is_alnum c in
      if an || (c =? 45) || (c =? 47) then
        if (c =? 45) && (Z.land (w_flags w) 1 =? 0) then
          let* _ := close 20 (w_cur w) in
          words_from r (S p) (mkWords (w_opt w) [] (w_t2 w) InTemp1 (Z.lor (w_flags w) 1))
        else if (c =? 47) && (Z.land (w_flags w) 2 =? 0) then
          let* _ := close 20 (w_cur w) in
          words_from r (S p) (mkWords (w_opt w) (w_t1 w) [] InTemp2 (Z.lor (w_flags w) 2))
        else if an then
          let* l' := push 20 (w_cur w) (to_upper c) in
          words_from r (S p) (w_put w l')
        else UB (* free(opt), and opt is not from the heap *)
      else Ok (p, w)
    end
  else Ok (p, w).

(** i = (i * 10) + ( *p - '0') over the leading digits, conf.c:157-159. *)
Definition int_ok (i : Z) : res Z := if (i <=? 2147483647) && (-2147483648 <=? i) then Ok i else UB.
Fixpoint number (l : list Z) (i : Z) : res Z :=
  match l with
  | [] => Ok i
  | c :: r => if is_digit c then (let* x := int_ok (i * 10) in let* y := int_ok (x + (c - 48)) in number r y) else Ok i
  end.
(** conf.c:143-152: a letter as the last character behind digits only. *)
Fixpoint tail_letter (l : list Z) : option Z :=
  match l with
  | [] => None
  | c :: r => if is_digit c then tail_letter r
              else match r with [] => if is_alpha c then Some c else None | _ => None end
  end.
Definition split_model (l : list Z) : list Z * option Z :=
  match l with
  | c :: _ => if is_digit c then match tail_letter l with Some m => (removelast l, Some m) | None => (l, None) end else (l, None)
  | [] => (l, None)
  end.

Definition get_model (m : mem) (p : nat) (o : option_t) : res (nat * option_t * bool) :=
  let* p := skip_space m p in
  let* c := rd m p in
  if at_end c then Ok (p, o, false)
  else
    let* r := words_from (skipn p m) p (mkWords [] [] [] InOpt 0) in
    let w := snd r in
    let* _ := close 20 (w_cur w) in
    let '(name, md) := split_model (w_opt w) in
    let model := match md with Some x => Some x | None => o_model o end in
    let* d := if negb (Z.land (w_flags w) 1 =? 0) then number (w_t1 w) 0 else Ok (o_dash o) in
    let* s := if negb (Z.land (w_flags w) 2 =? 0) then number (w_t2 w) 0 else Ok (o_slash o) in
    Ok (fst r, mkOpt name (w_flags w) model d s (o_addr o) (o_string o), true).

(** *** get_addr, conf.c:175-211; len is never counted up *)
Fixpoint hex_from (l : mem) (p : nat) (b : list Z) : res (nat * list Z) :=
  match l with
  | [] => UB
  | c :: r =>
    let* x := ctype is_xdigit c in
    if x then (let* b := push 20 b (to_upper c) in hex_from r (S p) b) else Ok (p, b)
  end.
Fixpoint hex_value (l : list Z) (i : Z) : res Z :=
  match l with
  | [] => Ok i
  | c :: r =>
    let* i := int_ok (i * 16) in
    let* i := int_ok (i + if is_alpha c then c - 65 + 10 else c - 48) in
    hex_value r i
  end.
Definition get_addr (m : mem) (p : nat) (o : option_t) : res (nat * option_t * bool) :=
  let* p := skip_space m p in
  let* c := rd m p in
  if at_end c then Ok (p, o, false)
  else
    let* r := hex_from (skipn p m) p [] in
    let* b := close 20 (snd r) in
    match b with
    | [] => Ok (fst r, o, false)
    | _ => let* i := hex_value b 0 in
           Ok (fst r, mkOpt (o_opt o) (o_flags o) (o_model o) (o_dash o) (o_slash o) (i mod 65536) (o_string o), true)
    end.

(** *** get_string, conf.c:213-258 *)

(** The loop, conf.c:233-257.  [len] counts one more than the characters in front of p for each doubled quote: there the
    quote is stored but p is not moved, so the next character goes to the same place. *)
Fixpoint string_from (l : mem) (p : nat) (quote : bool) (len : nat) (b : list Z) : res (nat * list Z) :=
  if (len <? 1024)%nat then
    match l with
    | [] => UB
    | c :: r =>
      if (c =? 34) && quote then
        match r with
        | [] => UB
        | d :: r' =>
          if d =? 34 then (let* _ := push 1024 b 34 in string_from r' (S (S p)) quote (S len) b)
          else
            let* sp := ctype is_space d in
            if sp || (d =? 10) || (d =? 0) then (let* b := close 1024 b in Ok (S p, b))
            else string_from r (S p) quote len b
        end
      else
        let* sp := if quote then Ok false else ctype is_space c in
        if negb quote && (sp || (c =? 10) || (c =? 0)) then (let* b := close 1024 b in Ok (p, b))
        else
          let* up := if quote then Ok false else ctype is_alpha c in
          let* b := push 1024 b (if up then to_upper c else c) in
          string_from r (S p) quote (S len) b
    end
  else (let* b := close 1024 b in Ok (p, b)).
Definition get_string (m : mem) (p : nat) (o : option_t) : res (nat * option_t * bool) :=
  let* p := skip_space m p in
  let* c := rd m p in
  if at_end c then Ok (p, o, false)
  else
    let quote := c =? 34 in
    let p := if quote then S p else p in
    let* r := string_from (skipn p m) p quote 0 [] in
    Ok (fst r, mkOpt (o_opt o) (o_flags o) (o_model o) (o_dash o) (o_slash o) (o_addr o) (snd r), true).

(** *** get_option, conf.c:260-295 *)
Fixpoint word_from (l : mem) (p : nat) (b : list Z) : res (nat * list Z) :=
  if (length b <? 20)%nat then
    match l with
    | [] => UB
    | c :: r =>
      let* an := ctype is_alnum c in
      if an || (c =? 45) then (let* b := push 20 b (to_upper c) in word_from r (S p) b) else Ok (p, b)
    end
  else Ok (p, b).
Definition get_option (m : mem) (p : nat) (o : option_t) : res (nat * option_t * bool) :=
  let o := mkOpt [] 0 (o_model o) (o_dash o) (o_slash o) (o_addr o) [] in
  let* p := skip_space m p in
  let* c := rd m p in
  if at_end c then Ok (p, o, false)
  else
    let* r := word_from (skipn p m) p [] in
    let* b := close 20 (snd r) in
    let o := mkOpt b 0 (o_model o) (o_dash o) (o_slash o) (o_addr o) [] in
    let p := fst r in
    let* c := rd m p in
    if c =? 61 then
      let* g := get_string m (S p) o in
      let '(p, o, ok) := g in
      if ok : bool then Ok (p, mkOpt (o_opt o) 1 (o_model o) (o_dash o) (o_slash o) (o_addr o) (o_string o), true)
      else Ok (p, o, false)
    else Ok (p, o, true).

(** *** get_integer, conf.c:297-317: the value stored, and whether 1 is returned *)
Fixpoint integer_from (l : list Z) (v : Z) : res (Z * bool) :=
  match l with
  | [] => Ok (v, true)
  | c :: r =>
    let* d := ctype is_digit c in
    if d then (let* x := int_ok (v * 10) in let* y := int_ok (x + (c - 48)) in integer_from r y) else Ok (v, false)
  end.
Definition get_integer (o : option_t) : res (Z * bool) :=
  match cstr (o_string o) with [] => Ok (0, false) | s => integer_from s 0 end.

(** *** get_index, conf.c:319-335 *)
Fixpoint str_eqb (a b : list Z) : bool :=
  match a, b with [], [] => true | x :: a, y :: b => (x =? y) && str_eqb a b | _, _ => false end.
Fixpoint index_from (s : list Z) (l : list (list Z)) (i : Z) : Z :=
  match l with [] => -1 | x :: r => if str_eqb s x then i else index_from s r (i + 1) end.
Definition get_index (o : option_t) (l : list (list Z)) : Z :=
  match cstr (o_string o) with [] => 0 | s => index_from s l 0 end.

(** *** The loop of the callers: while (get_option(&opts)) { ... }, for instance logger.c:226 *)
Fixpoint options (fuel : nat) (m : mem) (p : nat) (o : option_t) : res (nat * list option_t) :=
  match fuel with
  | O => NoFuel
  | S f =>
    let* g := get_option m p o in
    let '(p, o, ok) := g in
    if ok : bool then (let* r := options f m p o in Ok (fst r, o :: snd r)) else Ok (p, [])
  end.
