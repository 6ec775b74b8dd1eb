(** C130-C136: configuration files. *)
From Verif Require Import Conf.Spec Conf.LoadSpec Conf.LoadProofs.
From Coq Require Import String.
Open Scope string_scope.
Open Scope list_scope.
Open Scope Z_scope.
Import ListNotations.

(** C130: a line calls the create function of the first entry that has its name, once, with what its first word and its
    address say; without an entry, or without the address it needs, nothing is called. *)
Theorem C130_line {W} (create : creator W) devs h rest f o w : head_ok h -> ends rest -> field rest f ->
  load_line create devs (head_text h ++ rest) o w = obeyed create devs h rest f o w.
Proof. apply line_obeyed. Qed.
Print Assumptions C130_line.
Example C130_line_example :
  let devs := [mkEntry (chars "2030") 1 0; mkEntry (chars "2415") 3 7; mkEntry (chars "2415") 3 8] in
  let create : creator unit := fun k m p o w => Ok (w, o, true) in
  head_ok (mkHead (chars " ") (chars "2415") (chars "2415") None (Some (chars "4")) None) /\
  ends (chars " 0c0 x" ++ [0]) /\ field (chars " 0c0 x" ++ [0]) (Some (4%nat, 192)) /\
  load_line create devs (chars " 2415-4 0c0 x" ++ [0]) fresh tt
  = Ok (tt, mkOpt (chars "2415") 1 None 4 0 192 [], [Create 7 11 (mkOpt (chars "2415") 1 None 4 0 192 [])], true).
Proof.
  cbv zeta. split; [|split; [|split; [|vm_compute; reflexivity]]].
  - unfold head_ok. cbn [h_sp h_w h_n h_md h_d h_s]. split; [repeat constructor|]. split; [apply Digits; [repeat constructor|discriminate]|]. split; [vm_compute; lia|].
    split; [split; [repeat constructor|split; [vm_compute; lia|vm_compute; discriminate]]|exact I].
  - exists 32. eexists. split; [reflexivity|]. split; [unfold ascii; lia|]. split; [reflexivity|]. split; discriminate.
  - apply (Address (chars " ") (chars "0c0") 32 (chars "x" ++ [0])); try reflexivity; [repeat constructor|repeat constructor|vm_compute; lia|vm_compute; discriminate|unfold ascii; lia].
Qed.

(** Blank lines and comments do nothing. *)
Theorem C130_nothing {W} (create : creator W) devs sp e r o w : blanks sp -> e = 0 \/ e = 35 ->
  load_line create devs (sp ++ e :: r) o w = Ok (w, o, [], true).
Proof. apply line_nothing. Qed.
Print Assumptions C130_nothing.
Example C130_nothing_example : load_line (W := unit) (fun k m p o w => UB) [mkEntry (chars "2030") 1 0] (chars "   # 2030" ++ [0]) fresh tt = Ok (tt, fresh, [], true).
Proof. vm_compute. reflexivity. Qed.

(** C131 (for lines of less than 1023 characters): a file is its lines, one after the other, up to the first one that fails; then it is closed, once.
    Missing: longer lines; see the refutation. *)
Theorem C131_file_partial {W} (create : creator W) devs buf ls last o w : Forall short ls -> short last ->
  load_config create devs buf (Some (joined ls last)) o w = then_closed (in_order create devs (given_lines ls last) buf o w).
Proof. intros S L. unfold load_config. apply lines_in_order; [exact S|exact L|lia]. Qed.
Print Assumptions C131_file_partial.
Example C131_file_example :
  let devs := [mkEntry (chars "2030") 1 0; mkEntry (chars "LOGLEVEL") 5 2] in
  short (chars "2030E") /\ short (chars "loglevel info tape") /\
  load_config (creates 9 (fun _ => true)) devs (repeat 0 1024) (Some (joined [chars "loglevel info tape"; chars "# the machine"] (chars "2030e port=3200"))) fresh (mkSys false 0 0 0 0 false)
  = Ok (mkSys true 32768 32767 3200 4097 false, mkOpt (chars "2030") 0 (Some 69) 0 0 0 [],
        [Create 2 8 (mkOpt (chars "LOGLEVEL") 0 None 0 0 0 []); Create 0 5 (mkOpt (chars "2030") 0 (Some 69) 0 0 0 []); Closed], true).
Proof.
  cbv zeta. split; [|split; [|vm_compute; reflexivity]]; (split; [repeat (apply Forall_cons; [discriminate|]); apply Forall_nil|vm_compute; lia]).
Qed.

(** C131 fails for a comment of more than 1023 characters: the rest of it is taken for a line. *)
Theorem C131_long_line_refuted : exists text, Forall (fun c => c <> 10) text /\
  load_config (creates 9 (fun _ => true)) [mkEntry (chars "2030") 1 0] (repeat 0 1024) (Some ([35] ++ text)) fresh (mkSys false 0 0 0 0 false)
  = Ok (mkSys true 8192 8191 3270 0 false, mkOpt (chars "2030") 0 (Some 67) 0 0 0 [], [Create 0 5 (mkOpt (chars "2030") 0 (Some 67) 0 0 0 []); Closed], true).
Proof.
  exists (repeat 45 1022 ++ chars "2030C"). split; [|vm_compute; reflexivity].
  apply Forall_app. split; [apply Forall_forall; intros x I; apply repeat_spec in I; subst; discriminate|repeat (apply Forall_cons; [discriminate|]); apply Forall_nil].
Qed.
Print Assumptions C131_long_line_refuted.

(** C132: 0 is returned exactly if the last thing reported is a missing address or a create function that failed (or the file
    cannot be opened), and nothing of that kind is reported and passed over; an opened file is closed once, at the end.
    Missing: devices that are not known; see the refutation. *)
Theorem C132_errors_partial {W} (create : creator W) devs buf file o w w' o' ev ok :
  load_config create devs buf file o w = Ok (w', o', ev, ok) ->
  match file with
  | None => ev = [NoFile] /\ ok = false
  | Some _ => exists a, ev = (a ++ [Closed])%list /\ ~ In Closed a /\
      if ok then forallb (fun e => negb (fatal e)) a = true
      else exists b x, a = (b ++ [x])%list /\ fatal x = true /\ forallb (fun e => negb (fatal e)) b = true
  end.
Proof.
  assert (C : forall a, clean a -> ~ In Closed a /\ forallb (fun e => negb (fatal e)) a = true).
  { intros a H. split.
    - intros I. unfold clean in H. rewrite Forall_forall in H. destruct (H _ I) as [_ N]. congruence.
    - apply forallb_forall. intros x I. unfold clean in H. rewrite Forall_forall in H. destruct (H _ I) as [-> _]. reflexivity. }
  unfold load_config. destruct file as [l|]; [|intros E; injection E as <- <- <- <-; split; reflexivity].
  intros E. apply lines_verdict in E. destruct E as (a & -> & V). exists a. split; [reflexivity|]. destruct ok; cbn [verdict] in V.
  - apply C, V.
  - destruct V as (b & x & -> & V1 & V2). destruct (C b V1) as [C1 C2]. split.
    + intros I. apply in_app_or in I. destruct I as [I|[I|[]]]; [exact (C1 I)|]. subst x. discriminate V2.
    + exists b, x. split; [reflexivity|]. split; [exact V2|exact C2].
Qed.
Print Assumptions C132_errors_partial.
Example C132_errors_example :
  load_config (W := unit) (fun k m p o w => Ok (w, o, true)) [mkEntry (chars "1442") 2 5; mkEntry (chars "1443") 2 6] (repeat 0 1024)
    (Some (joined [chars "1443 00e"; chars "1442"; chars "1443 00f"] [])) fresh tt
  = Ok (tt, mkOpt (chars "1442") 0 None 0 0 14 [], [Create 6 8 (mkOpt (chars "1443") 0 None 0 0 14 []); Missing (chars "1442"); Closed], false).
Proof. vm_compute. reflexivity. Qed.

(** C132 fails: a device that is not known is reported, but the load goes on and succeeds. *)
Theorem C132_unknown_refuted :
  load_config (W := unit) (fun k m p o w => Ok (w, o, true)) [mkEntry (chars "1442") 2 5] (repeat 0 1024) (Some (joined [chars "1441 00c"] [])) fresh tt
  = Ok (tt, mkOpt (chars "1441") 0 None 0 0 0 [], [Unknown (chars "1441"); Closed], true).
Proof. vm_compute. reflexivity. Qed.
Print Assumptions C132_unknown_refuted.

(** C133 (for lines whose first word has a letter, a minus and a slash): what a create function is given is said by its own
    line, whatever was read before.
    Missing: words without these parts; see the refutations. *)
Theorem C133_own_partial {W} (create : creator W) devs h rest f o1 o2 w : head_ok h -> ends rest -> field rest f ->
  h_md h <> None -> h_d h <> None -> h_s h <> None -> o_string o1 = o_string o2 ->
  (forall e, lookup devs (map to_upper (h_n h)) = Some e -> 2 <= e_type e <= 4 /\ f <> None) ->
  match load_line create devs (head_text h ++ rest) o1 w, load_line create devs (head_text h ++ rest) o2 w with
  | Ok (_, _, ev1, ok1), Ok (_, _, ev2, ok2) => ev1 = ev2 /\ ok1 = ok2
  | UB, UB => True
  | NoFuel, NoFuel => True
  | _, _ => False
  end.
Proof.
  intros H E F M D S ST T. rewrite !(line_obeyed create devs h rest f) by assumption. unfold obeyed.
  destruct (lookup devs (map to_upper (h_n h))) as [e|] eqn:L; [|split; reflexivity]. destruct (T e eq_refl) as [TY FN].
  destruct f as [[k a]|]; [|congruence].
  assert (G : at_addr (given h o1) a = at_addr (given h o2) a).
  { unfold at_addr, given. cbn. destruct (h_md h); [|congruence]. destruct (h_d h); [|congruence]. destruct (h_s h); [|congruence]. cbn [part_value]. rewrite ST. reflexivity. }
  assert (Q : e_type e = 2 \/ e_type e = 3 \/ e_type e = 4) by lia. rewrite G.
  destruct Q as [Q|[Q|Q]]; rewrite Q; unfold asked; destruct (create (e_create e) _ _ _ w) as [[[w1 o3] []]| |]; try exact I; split; reflexivity.
Qed.
Print Assumptions C133_own_partial.
Example C133_own_example :
  let h := mkHead [] (chars "2415u") (chars "2415") (Some 117) (Some (chars "4")) (Some (chars "1")) in
  head_ok h /\ head_text h = chars "2415u-4/1" /\
  load_line (W := unit) (fun k m p o w => Ok (w, o, true)) [mkEntry (chars "2415") 3 7] (chars "2415u-4/1 0c0" ++ [0]) (mkOpt [] 7 (Some 70) 8 9 10 []) tt
  = Ok (tt, mkOpt (chars "2415") 3 (Some 85) 4 1 192 [], [Create 7 13 (mkOpt (chars "2415") 3 (Some 85) 4 1 192 [])], true).
Proof.
  cbv zeta. split; [|split; vm_compute; reflexivity]. unfold head_ok. cbn [h_sp h_w h_n h_md h_d h_s]. split; [apply Forall_nil|].
  split; [apply (Letter (chars "2415") 117); [repeat constructor|discriminate|reflexivity]|]. split; [vm_compute; lia|].
  split; (split; [repeat constructor|split; [vm_compute; lia|vm_compute; discriminate]]).
Qed.

(** C133 fails: the letter of an earlier line is still there.  Here the second controller of tapes is taken for a unit:
    model2415_create (model2415.c:1349) looks for the letter U. *)
Theorem C133_letter_refuted :
  load_config (W := unit) (fun k m p o w => Ok (w, o, true)) [mkEntry (chars "2415") 3 7] (repeat 0 1024) (Some (joined [chars "2415u 0c0"; chars "2415 1c0"] [])) fresh tt
  = Ok (tt, mkOpt (chars "2415") 0 (Some 85) 0 0 448 [],
        [Create 7 9 (mkOpt (chars "2415") 0 (Some 85) 0 0 192 []); Create 7 8 (mkOpt (chars "2415") 0 (Some 85) 0 0 448 []); Closed], true).
Proof. vm_compute. reflexivity. Qed.
Print Assumptions C133_letter_refuted.

(** And a first line without a letter gives a letter that nothing was ever stored in: the model 30 and the model 50 read it. *)
Theorem C133_no_letter_refuted room w : y_title w = false ->
  load_line (creates 9 room) [mkEntry (chars "2030") 1 0; mkEntry (chars "2050") 1 1] (chars "2030" ++ [0]) fresh w = UB /\
  load_line (creates 9 room) [mkEntry (chars "2030") 1 0; mkEntry (chars "2050") 1 1] (chars "2050" ++ [0]) fresh w = UB.
Proof. destruct w as [ti ce ma po le lo]. cbn [y_title]. intros ->. split; vm_compute; reflexivity. Qed.
Print Assumptions C133_no_letter_refuted.
Example C133_no_letter_example : y_title (mkSys false 0 0 0 0 false) = false.
Proof. reflexivity. Qed.

(** C134 (for the letters A to T): the letter of a model 30 gives a memory of 2 to the power of 11, 12, .. bytes up to 64K (A to F),
    any other letter is refused; the options are PORT=number and nothing else; there is only one CPU.
    Missing: the letters U to Z; see the refutation. *)
Theorem C134_model30_partial fuel room items vs pre t e r opt c w : items_ok items -> end_ok t e -> (List.length items < fuel)%nat ->
  Forall2 (fun x v => port_item (snd x) v) items vs -> o_model opt = Some c -> 65 <= c <= 84 -> y_title w = false ->
  create2030 fuel room (pre ++ line items ++ t ++ e :: r) (List.length pre) opt w =
  Ok (match port_of vs 3270 with
      | Some p => if (c <=? 70) && room (memory c) then (mkSys true (memory c) (memory c - 1) p (y_level w) (y_log w), true)
                  else (mkSys true (y_cells w) (y_max w) (y_port w) (y_level w) (y_log w), false)
      | None => (mkSys true (y_cells w) (y_max w) (y_port w) (y_level w) (y_log w), false)
      end).
Proof. apply create30. Qed.
Print Assumptions C134_model30_partial.
Example C134_model30_example :
  create2030 9 (fun _ => true) (chars "2030f" ++ chars " port=3201 Port=""70000""" ++ [0]) 5 (mkOpt [] 0 (Some 70) 0 0 0 []) (mkSys false 0 0 0 0 false)
  = Ok (mkSys true 65536 65535 4464 0 false, true) /\
  port_item (Plain (chars "port") (chars "3201")) (Some 3201) /\ port_item (Quoted (chars "Port") (chars "70000")) (Some 4464) /\
  create2030 9 (fun _ => true) (chars " size=1" ++ [0]) 0 (mkOpt [] 0 (Some 70) 0 0 0 []) (mkSys false 0 0 0 0 false) = Ok (mkSys true 0 0 0 0 false, false) /\
  port_item (Plain (chars "size") (chars "1")) None.
Proof.
  split; [vm_compute; reflexivity|]. split; [|split; [|split; [vm_compute; reflexivity|]]].
  - apply (PortPlain (chars "port") (chars "3201")); [reflexivity|repeat constructor|discriminate|vm_compute; discriminate].
  - apply (PortQuoted (chars "Port") (chars "70000")); [reflexivity|repeat constructor|discriminate|vm_compute; discriminate].
  - apply OtherPlain. discriminate.
Qed.
(** The model 50: 64K (F) to 512K (I), in words of four bytes. *)
Theorem C134_model50_partial room opt c w : o_model opt = Some c -> 65 <= c <= 84 -> y_title w = false ->
  create2050 room opt w = Ok (if (70 <=? c) && (c <=? 73) && room (memory c / 4) then (mkSys true (memory c / 4) (memory c - 1) (y_port w) (y_level w) (y_log w), true)
                              else (mkSys true (y_cells w) (y_max w) (y_port w) (y_level w) (y_log w), false)).
Proof. apply create50. Qed.
Print Assumptions C134_model50_partial.
Example C134_model50_example : create2050 (fun _ => true) (mkOpt [] 0 (Some 72) 0 0 0 []) (mkSys false 0 0 7 0 false) = Ok (mkSys true 65536 262143 7 0 false, true) /\
  create2050 (fun _ => true) (mkOpt [] 0 (Some 69) 0 0 0 []) (mkSys false 0 0 7 0 false) = Ok (mkSys true 0 0 7 0 false, false).
Proof. split; vm_compute; reflexivity. Qed.
(** A second CPU is refused and changes nothing. *)
Theorem C134_second fuel room m p opt w : y_title w = true -> create2030 fuel room m p opt w = Ok (w, false) /\ create2050 room opt w = Ok (w, false).
Proof. apply create_second. Qed.
Print Assumptions C134_second.
Example C134_second_example : y_title (mkSys true 0 0 0 0 false) = true.
Proof. reflexivity. Qed.
(** C134 fails for the letters from U on: the size is shifted out of an int. *)
Theorem C134_letter_refuted room w c : y_title w = false -> 85 <= c <= 90 -> create2050 room (mkOpt [] 0 (Some c) 0 0 0 []) w = UB.
Proof.
  intros T C. unfold create2050. rewrite T. cbn [o_model]. replace (c =? 0) with false by lia. unfold cells. replace ((0 <=? c - 65) && (c - 65 <=? 19)) with false by lia. reflexivity.
Qed.
Print Assumptions C134_letter_refuted.
Example C134_letter_example : 85 <= 85 <= 90 /\ load_line (creates 9 (fun _ => true)) [mkEntry (chars "2050") 1 1] (chars "2050u" ++ [0]) fresh (mkSys false 0 0 0 0 false) = UB.
Proof. split; [lia|vm_compute; reflexivity]. Qed.

(** C135: LOGLEVEL adds the bits of the names on its line to the level, takes none away, and succeeds exactly if each option is
    one of the names (and has no value). *)
Theorem C135_level fuel items pre t e r w : items_ok items -> end_ok t e -> (List.length items < fuel)%nat ->
  exists l ok, createLEVEL fuel (pre ++ line items ++ t ++ e :: r) (List.length pre) w = Ok (mkSys (y_title w) (y_cells w) (y_max w) (y_port w) l (y_log w), ok) /\
  (ok = true <-> Forall (fun x => level_ok (snd x)) items) /\
  (forall k, Z.testbit l (Z.of_nat k) = true <->
     Z.testbit (y_level w) (Z.of_nat k) = true \/ exists x n, In x items /\ level_word (snd x) n /\ nth_error level_names k = Some n).
Proof. apply createLEVEL_line. Qed.
Print Assumptions C135_level.
Example C135_level_example :
  createLEVEL 9 (chars "loglevel info Tape freg" ++ [0]) 8 (mkSys false 0 0 0 2 false) = Ok (mkSys false 0 0 0 266243 false, true) /\
  createLEVEL 9 (chars "loglevel info nothing tape=2 disk # x" ++ [0]) 8 (mkSys false 0 0 0 2 false) = Ok (mkSys false 0 0 0 8195 false, false) /\
  items_ok [(chars " ", Name (chars "info")); (chars " ", Plain (chars "tape") (chars "2"))].
Proof.
  split; [vm_compute; reflexivity|]. split; [vm_compute; reflexivity|]. unfold items_ok, item_ok, name_ok, blanks, plain_char, word_char, blank, ascii. cbn.
  repeat first [apply Forall_nil | apply Forall_cons | split | lia | discriminate | reflexivity | (left; reflexivity) | (intro; discriminate) | (apply Nat.ltb_lt; reflexivity) | (intros ?; lia)].
Qed.
(** C135 fails for the form with commas, which the head of conf.c describes: the scanner stays at the comma and the loop does not end. *)
Theorem C135_comma_refuted : forall fuel w, createLEVEL fuel (chars "loglevel info, tape" ++ [0]) 8 w = NoFuel.
Proof.
  intros fuel w. unfold createLEVEL. generalize (y_level w, true) as a. intros a.
  assert (S : forall f (b : Z * bool), each_option f level_body (chars "loglevel info, tape" ++ [0]) 13 fresh b = NoFuel).
  { induction f as [|f IH]; intros b; [reflexivity|]. cbn [each_option].
    replace (get_option (chars "loglevel info, tape" ++ [0]) 13 fresh) with (Ok (13%nat, fresh, true)) by (vm_compute; reflexivity).
    cbn [bind]. rewrite level_step. cbn [bind fst snd]. rewrite IH. reflexivity. }
  destruct fuel as [|f]; [reflexivity|]. cbn [each_option].
  replace (get_option (chars "loglevel info, tape" ++ [0]) 8 fresh) with (Ok (13%nat, mkOpt (chars "INFO") 0 None 0 0 0 [], true)) by (vm_compute; reflexivity).
  cbn [bind]. rewrite level_step. cbn [bind fst snd]. set (b := match known _ with Some _ => _ | None => _ end). clearbody b.
  destruct f as [|f]; [reflexivity|]. cbn [each_option].
  replace (get_option (chars "loglevel info, tape" ++ [0]) 13 (mkOpt (chars "INFO") 0 None 0 0 0 [])) with (Ok (13%nat, fresh, true)) by (vm_compute; reflexivity).
  cbn [bind]. rewrite level_step. cbn [bind fst snd]. rewrite S. reflexivity.
Qed.
Print Assumptions C135_comma_refuted.

(** C47: what is not a number is refused. *)
Theorem C47_not_a_number o a c r : o_string o = (a ++ c :: r)%list -> Forall (fun x => x <> 0) (o_string o) -> digits a -> dec_value a <= 2147483647 -> ascii c -> is_digit c = false ->
  get_integer o = Ok (dec_value a, false).
Proof. apply integer_rejects. Qed.
Print Assumptions C47_not_a_number.
Theorem C47_no_number o : o_string o = [] -> get_integer o = Ok (0, false).
Proof. apply integer_empty. Qed.
Print Assumptions C47_no_number.
Example C47_not_a_number_example : get_integer (mkOpt [] 0 None 0 0 0 (chars "64K")) = Ok (64, false) /\ chars "64K" = (chars "64" ++ 75 :: [])%list.
Proof. split; vm_compute; reflexivity. Qed.
