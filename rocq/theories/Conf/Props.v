(** C44..C47: the configuration scanner. *)
From Verif Require Import Conf.Proofs.
From Coq Require Import Ascii String List.
From Verif Require Import Conf.Spec.
Import ListNotations.
Open Scope list_scope.
Open Scope Z_scope.

Definition b (s : string) : list Z := map (fun c => Z.of_nat (nat_of_ascii c)) (list_ascii_of_string s).
Definition o0 := mkOpt [] 0 None 0 0 0 [].

(** C45 (for plain lines): a line of fewer than 1024 characters, all ASCII, without quotes and without a word of 20 or
    more characters, is scanned inside the buffers and inside the line, whatever else is written in it, however often the
    caller asks for another option.
    Missing: every other line; see the refutations below. *)
Theorem C45_options_partial fuel pre l r o : tame l -> noub (options fuel (pre ++ l ++ 0 :: r) (length pre) o).
Proof. apply options_tame. Qed.
Print Assumptions C45_options_partial.
Example C45_options_example : noub (options 9 (b "1442 00c " ++ b "file=deck.cd eof,x=1" ++ 0 :: b "junk") 9 o0).
Proof. vm_compute. exact I. Qed.
Example C45_tame_example : tame (b "a=b,c").
Proof.
  split; [|split].
  - cbn. repeat constructor; unfold ascii; lia.
  - vm_compute. lia.
  - intros x w y E _. apply (f_equal (@List.length Z)) in E. rewrite !app_length in E. cbn in E. lia.
Qed.

(** C45 fails: a word of 20 characters, as name of an option and as name of a unit. *)
Theorem C45_long_word_refuted : get_option (b "abcdefghijklmnopqrst" ++ [0]) 0 o0 = UB /\ get_model (b "abcdefghijklmnopqrst" ++ [0]) 0 o0 = UB.
Proof. split; vm_compute; reflexivity. Qed.
Print Assumptions C45_long_word_refuted.
(** The digits of an address are not counted at all. *)
Theorem C45_long_address_refuted : get_addr (b "00000000000000000000c" ++ [0]) 0 o0 = UB /\ get_addr (b "80000000" ++ [0]) 0 o0 = UB.
Proof. split; vm_compute; reflexivity. Qed.
Print Assumptions C45_long_address_refuted.
(** A second minus makes the scanner free an array on the stack. *)
Theorem C45_second_minus_refuted : get_model (b "2415-4-1" ++ [0]) 0 o0 = UB.
Proof. vm_compute. reflexivity. Qed.
Print Assumptions C45_second_minus_refuted.
(** A quote that is not closed: whatever follows the line in memory is read, up to the end of the object. *)
Theorem C45_open_quote_refuted : get_option (b "file=""deck" ++ [0]) 0 o0 = UB.
Proof. vm_compute. reflexivity. Qed.
Print Assumptions C45_open_quote_refuted.
(** A letter outside of ASCII. *)
Theorem C45_not_ascii_refuted : get_option (b "file=" ++ [228; 0]) 0 o0 = UB.
Proof. vm_compute. reflexivity. Qed.
Print Assumptions C45_not_ascii_refuted.
(** A number with ten digits. *)
Theorem C45_big_number_refuted : get_integer (mkOpt [] 0 None 0 0 0 (b "2147483648")) = UB /\ get_model (b "2415-2147483648" ++ [0]) 0 o0 = UB.
Proof. split; vm_compute; reflexivity. Qed.
Print Assumptions C45_big_number_refuted.

(** C46 (for lines of words, blanks, equal signs and comments): asking for options until there is none ends, after at most
    as many calls as there are characters.
    Missing: lines with other characters; see the refutation. *)
Theorem C46_ends_partial fuel pre l r o : tame l -> Forall start_char l -> (length l < fuel)%nat ->
  exists q, options fuel (pre ++ l ++ 0 :: r) (length pre) o = Ok q.
Proof. apply options_end. Qed.
Print Assumptions C46_ends_partial.
Example C46_ends_example : options 40 (b " a = =b c==d e- #f" ++ [0]) 0 o0 <> NoFuel /\ Forall start_char (b " a = =b c==d e- #f").
Proof. split; [vm_compute; discriminate|]. cbn.
  repeat (apply Forall_cons; [first [left; split; [unfold ascii; lia|first [left; reflexivity|right; reflexivity]] | right; left; reflexivity
    | right; right; first [left; reflexivity|right; reflexivity]]|]). apply Forall_nil.
Qed.

(** C46 fails: at a comma get_option returns 1 and stays where it is. *)
Theorem C46_comma_refuted : forall fuel, options fuel (b " file=x debug , trace" ++ [0]) 13 o0 = NoFuel.
Proof.
  intros fuel. destruct fuel as [|f]; [reflexivity|]. cbn [options].
  set (m := b " file=x debug , trace" ++ [0]).
  assert (G : get_option m 13 o0 = Ok (14%nat, mkOpt [] 0 None 0 0 0 [], true)) by (vm_compute; reflexivity).
  rewrite G. cbn [bind].
  rewrite (options_stuck m 14 (mkOpt [] 0 None 0 0 0 []) (mkOpt [] 0 None 0 0 0 [])) by (vm_compute; reflexivity). reflexivity.
Qed.
Print Assumptions C46_comma_refuted.

(** C47: the options of a line are delivered as they are written, in order, and the scanner stops at the end of the line or
    at the comment. *)
Theorem C47_options items pre t e r o fuel : items_ok items -> end_ok t e -> (length items < fuel)%nat ->
  options fuel (pre ++ line items ++ t ++ e :: r) (length pre) o
  = Ok (length (pre ++ line items ++ t), map (fun x => meaning o (snd x)) items).
Proof. apply options_line. Qed.
Print Assumptions C47_options.
Example C47_options_example :
  items_ok [(b " ", Plain (b "file") (b "deck.cd")); (b "  ", Name (b "auto")); (b " ", Quoted (b "title") (b "A b # c"))] /\
  options 5 (b " file=deck.cd  auto title=""A b # c"" # comment" ++ [0]) 0 o0
  = Ok (36%nat, [mkOpt (b "FILE") 1 None 0 0 0 (b "DECK.CD"); mkOpt (b "AUTO") 0 None 0 0 0 []; mkOpt (b "TITLE") 1 None 0 0 0 (b "A b # c")]).
Proof.
  split; [|vm_compute; reflexivity]. unfold items_ok, item_ok, name_ok, blanks, plain_char, word_char, blank, ascii. cbn.
  repeat first [apply Forall_nil | apply Forall_cons | split | lia | discriminate | reflexivity | (left; reflexivity) | (intro; discriminate) | (apply Nat.ltb_lt; reflexivity) | (intros ?; lia)].
Qed.

(** Addresses. *)
Theorem C47_address pre sp l c r o : blanks sp -> xdigits l -> (0 < length l < 20)%nat -> hex_number l <= 2147483647 -> ascii c -> is_xdigit c = false ->
  get_addr (pre ++ sp ++ l ++ c :: r) (length pre) o
  = Ok (length (pre ++ sp ++ l), mkOpt (o_opt o) (o_flags o) (o_model o) (o_dash o) (o_slash o) (hex_number l mod 65536) (o_string o), true).
Proof. apply addr_at. Qed.
Print Assumptions C47_address.
Example C47_address_example : get_addr (b "1442 0Bc x" ++ [0]) 4 o0 = Ok (8%nat, mkOpt [] 0 None 0 0 188 [], true).
Proof. vm_compute. reflexivity. Qed.

(** The first word: unit, model, and the numbers behind the minus and the slash. *)
Theorem C47_unit pre sp w n md d s c r o : blanks sp -> unit_word w n md -> (length w < 20)%nat -> part_ok d -> part_ok s ->
  ascii c -> is_alnum c = false -> c <> 45 -> c <> 47 ->
  get_model (pre ++ sp ++ w ++ part 45 d ++ part 47 s ++ c :: r) (length pre) o
  = Ok (length (pre ++ sp ++ w ++ part 45 d ++ part 47 s),
        mkOpt (map to_upper n) (part_flag d 1 + part_flag s 2) (match md with Some x => Some (to_upper x) | None => o_model o end)
          (part_value d (o_dash o)) (part_value s (o_slash o)) (o_addr o) (o_string o), true).
Proof. apply model_at. Qed.
Print Assumptions C47_unit.
Example C47_unit_example : unit_word (b "2030e") (b "2030") (Some 101) /\
  get_model (b " 2030e-3/16 0C0" ++ [0]) 0 o0 = Ok (11%nat, mkOpt (b "2030") 3 (Some 69) 3 16 0 [], true).
Proof.
  split; [|vm_compute; reflexivity]. apply (Letter (b "2030") 101); [|discriminate|reflexivity]. repeat constructor.
Qed.

(** Numbers. *)
Theorem C47_number o : digits (o_string o) -> o_string o <> [] -> dec_value (o_string o) <= 2147483647 ->
  get_integer o = Ok (dec_value (o_string o), true).
Proof. apply integer_at. Qed.
Print Assumptions C47_number.
Example C47_number_example : get_integer (mkOpt [] 0 None 0 0 0 (b "65536")) = Ok (65536, true).
Proof. vm_compute. reflexivity. Qed.

(** C47 fails for doubled quotes: the quote is lost. *)
Theorem C47_doubled_quote_refuted :
  get_option (b "title=""a""""b"" " ++ [0]) 0 o0 = Ok (12%nat, mkOpt (b "TITLE") 1 None 0 0 0 (b "ab"), true).
Proof. vm_compute. reflexivity. Qed.
Print Assumptions C47_doubled_quote_refuted.

(** C44: get_index gives the place of the string in the list, or -1 (for strings that are not empty).
    Missing: the empty string; see the refutation. *)
Theorem C44_index_partial o l : o_string o <> [] -> Forall (fun c => c <> 0) (o_string o) ->
  (get_index o l = -1 /\ ~ In (o_string o) l) \/
  (exists n, get_index o l = Z.of_nat n /\ nth_error l n = Some (o_string o) /\ ~ In (o_string o) (firstn n l)).
Proof.
  intros N F. unfold get_index. rewrite cstr_id by exact F. destruct (o_string o) as [|c s]; [congruence|]. apply (index_spec (c :: s) l 0).
Qed.
Print Assumptions C44_index_partial.
Example C44_index_example : get_index (mkOpt [] 0 None 0 0 0 (b "WARN")) [b "ERROR"; b "WARN"; b "INFO"] = 1.
Proof. vm_compute. reflexivity. Qed.
(** C44 fails for an option without a value: it counts as the first entry of the list. *)
Theorem C44_no_value_refuted : get_index (mkOpt (b "LEVEL") 0 None 0 0 0 []) [b "ERROR"; b "WARN"] = 0.
Proof. vm_compute. reflexivity. Qed.
Print Assumptions C44_no_value_refuted.
