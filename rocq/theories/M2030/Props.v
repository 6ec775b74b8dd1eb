(** The properties of the 2030 processor. *)
From Verif Require Import M2030.Model M2030.Spec M2030.Proofs M2030.Proofs3 M2030.Proofs5 M2030.Proofs6 M2030.Proofs7 M2030.Proofs8.
Ltac by_vm := vm_compute; repeat split; reflexivity.
Ltac words := unfold word_ok, switches_ok; cbn; lia.

(** C60: binary arithmetic: the sum of the gated operands, its parity, the carries and the test for zero. *)
Theorem C60 : forall ti sw w s s', micro ti sw w s = Ok s' -> s!dead_cycle = 0 -> word_ok w -> CV w < 3 -> is_sum (CC w) -> s'!even_parity = 0 ->
  let a := gate_a (CF w) s'!Abus in
  let b := gate_b (CG w) s'!Bbus in
  let b' := if complement (CV w) s!S_REG then 255 - b else b in
  let c := carry_into (CC w) s!S_REG in
  odd9 s'!Alu_out /\ s'!Alu_out mod 256 = (a + b' + c) mod 256 /\
  ibit s'!STAT_REG 5 = (256 <=? a + b' + c) /\ ibit s'!STAT_REG 6 = (128 <=? a mod 128 + b' mod 128 + c) /\
  ibit s'!STAT_REG 4 = ((a + b' + c) mod 256 =? 0) /\
  (saves_carry (CC w) -> ibit s'!S_REG 3 = (256 <=? a + b' + c)).
Proof. exact micro_binary. Qed.
Print Assumptions C60.
(** The operands are the registers the word names, the result goes to the register it names and the others stay. *)
Theorem C60_operands : forall ti sw w s s', micro ti sw w s = Ok s' -> s!dead_cycle = 0 -> CK w <> 20 -> CK w <> 29 ->
  (forall r, In (CA w, r) a_regs -> s'!Abus = s!r) /\ (forall r, In (CB w, r) b_regs -> s'!Bbus = s!r) /\
  (CB w = 3 -> odd9 s'!Bbus /\ s'!Bbus mod 256 = 17 * (CK w mod 16)) /\
  (forall r, In (CD w, r) d_regs -> s'!r = s'!Alu_out) /\ (forall r, In r kept -> ~ In (CD w, r) d_regs -> s'!r = s!r).
Proof. exact micro_operands. Qed.
Print Assumptions C60_operands.
(** The logical functions. *)
Theorem C60_logical : forall ti sw w s s', micro ti sw w s = Ok s' -> s!dead_cycle = 0 -> word_ok w -> CV w < 3 -> CC w = 2 \/ CC w = 3 \/ CC w = 7 -> s'!even_parity = 0 ->
  let a := gate_a (CF w) s'!Abus in
  let b := gate_b (CG w) s'!Bbus in
  let b' := if complement (CV w) s!S_REG then 255 - b else b in
  odd9 s'!Alu_out /\ s'!Alu_out mod 256 = (if CC w =? 2 then Z.land a b' else if CC w =? 3 then Z.lor a b' else Z.lxor a b') /\
  ibit s'!STAT_REG 5 = false /\ ibit s'!STAT_REG 6 = false /\ ibit s'!STAT_REG 4 = (s'!Alu_out mod 256 =? 0).
Proof. exact micro_logical. Qed.
Print Assumptions C60_logical.
(** D + L to D with D = 200, L = 100: 44 and a carry. *)
Definition add_word : ros := mkW 0 0 0 1 0 8 1 0 8 3 3 0 4 0 0.
Example C60_ex : word_ok add_word /\ CV add_word < 3 /\ is_sum (CC add_word) /\ saves_carry (CC add_word) /\
  match micro 0 off add_word (at_rest <[D_REG := 200]> <[L_REG := 100]>) with Ok s' => s'!even_parity = 0 /\ s'!D_REG = 44 /\ ibit s'!S_REG 3 = true | _ => False end.
Proof. split; [words|]. split; [reflexivity|]. split; [unfold is_sum; cbn; lia|]. split; [unfold saves_carry; cbn; lia|]. by_vm. Qed.
Example C60_logical_ex :
  match micro 0 off (mkW 0 0 0 1 0 8 1 0 8 3 3 0 7 0 0) (at_rest <[D_REG := 200]> <[L_REG := 100]>) with Ok s' => s'!even_parity = 0 /\ s'!D_REG = Z.lor 172 256 | _ => False end.
Proof. by_vm. Qed.

(** C61: decimal arithmetic on two valid digits: the sum, or with S0 the difference by the complement to 99. *)
Theorem C61 : forall ti sw w s s' m n, micro ti sw w s = Ok s' -> s!dead_cycle = 0 -> word_ok w -> CV w = 3 -> is_sum (CC w) -> s'!even_parity = 0 ->
  0 <= m < 100 -> 0 <= n < 100 -> gate_a (CF w) s'!Abus = bcd m -> gate_b (CG w) s'!Bbus = bcd n ->
  let t := m + (if ibit s!S_REG 0 then 99 - n else n) + carry_into (CC w) s!S_REG in
  odd9 s'!Alu_out /\ s'!Alu_out mod 256 = bcd (t mod 100) /\
  ibit s'!STAT_REG 5 = (100 <=? t) /\ (saves_carry (CC w) -> ibit s'!S_REG 3 = (100 <=? t)).
Proof. exact micro_decimal. Qed.
Print Assumptions C61.
(** 99 + 1, and 42 - 17 with S0 and the carry of the end of a subtraction. *)
Example C61_ex :
  match micro 0 off (mkW 0 0 0 1 0 8 1 0 8 3 3 3 4 0 0) (at_rest <[D_REG := 409]> <[L_REG := 1]>) with
  | Ok s' => s'!even_parity = 0 /\ gate_a 3 s'!Abus = bcd 99 /\ gate_b 3 s'!Bbus = bcd 1 /\ s'!D_REG = 256 /\ ibit s'!S_REG 3 = true | _ => False end.
Proof. by_vm. Qed.
Example C61_ex2 :
  match micro 0 off (mkW 0 0 0 1 0 8 1 0 8 3 3 3 5 0 0) (at_rest <[D_REG := 322]> <[L_REG := 23]> <[S_REG := 128]>) with
  | Ok s' => s'!even_parity = 0 /\ gate_a 3 s'!Abus = bcd 42 /\ gate_b 3 s'!Bbus = bcd 17 /\ s'!D_REG mod 256 = bcd 25 /\ ibit s'!S_REG 3 = true | _ => False end.
Proof. by_vm. Qed.

(** C62 fails: the switches A and B never reach the address, whose low byte is whatever N held; and if N has its parity bit, the
    store key reads outside the parity table. *)
Definition keys : switches := mkS 1 2 3 4 32 0 0 5 6 0 0 1 0.
Theorem C62_refuted : switches_ok keys /\ (at_rest <[N_REG := 0]>)!allow_write = 0 /\
  match store_key keys (at_rest <[N_REG := 0]>) with
  | Ok s => nth (Z.to_nat 4660) (mm s) 0 = 256 /\ nth (Z.to_nat 13312) (mm s) 0 mod 256 = 86 | _ => False end.
Proof. split; [words|]. split; [reflexivity|]. by_vm. Qed.
Print Assumptions C62_refuted.
Theorem C62_parity_refuted : store_key keys at_rest = UB.
Proof. by_vm. Qed.
Print Assumptions C62_parity_refuted.
(** What holds: the byte goes to the address the switches C, D and the register N make, nothing else changes, and the display
    key with the same switches shows it.  Missing: that this is the address of the switches A to D. *)
Theorem C62_partial : forall sw s, switches_ok sw -> E_SW sw = 32 -> s!allow_write = 0 -> 0 <= s!N_REG < 256 -> Z.of_nat (length (mm s)) = 65536 ->
  let a := 256 * (16 * C_SW sw + D_SW sw) + s!N_REG in
  exists s1 s2, store_key sw s = Ok s1 /\ only_at a (mm s) (mm s1) /\ ls s1 = ls s /\ mp s1 = mp s /\
    display_key sw s1 = Ok s2 /\ same_storage s1 s2 /\ odd9 s2!R_REG /\ s2!R_REG mod 256 = 16 * H_SW sw + J_SW sw.
Proof. exact store_display. Qed.
Print Assumptions C62_partial.
(** Registers: what is stored is displayed, and only the register changes. *)
Theorem C62_registers_partial : forall sw s e r, switches_ok sw -> E_SW sw = e ->
  In (e, r) [(16, Q_REG); (48, I_REG); (49, J_REG); (50, U_REG); (51, V_REG); (52, L_REG); (53, T_REG); (54, D_REG); (55, R_REG); (57, G_REG); (58, H_REG)] ->
  exists s1 s2, store_key sw s = Ok s1 /\ display_key sw s1 = Ok s2 /\ same_storage s s1 /\ same_storage s1 s2 /\ odd9 s2!Abus /\ s2!Abus mod 256 = 16 * H_SW sw + J_SW sw /\
    s2!r = s2!Abus /\ (forall q, ~ In q [Bbus; Alu_out; Abus; r] -> s1!q = s!q).
Proof.
  intros sw s e r A B C. destruct (store_display_reg sw s e r A B C) as (s1 & s2 & E1 & E2 & E3 & E4 & E5 & E6 & E7 & E8). exists s1, s2.
  repeat (split; [assumption|]). intros q N. apply E8. unfold outside. destruct (existsb (reg_beq q) _) eqn:X; [|reflexivity].
  exfalso. apply N. apply existsb_exists in X as (x & I & Q). apply reg_beq_true in Q. congruence.
Qed.
Print Assumptions C62_registers_partial.
Example C62_ex : switches_ok keys /\ E_SW keys = 32 /\ (at_rest <[N_REG := 7]>)!allow_write = 0 /\ (at_rest <[N_REG := 7]>)!N_REG = 7 /\ Z.of_nat (length (mm at_rest)) = 65536.
Proof. split; [words|]. by_vm. Qed.
Example C62_registers_ex : match store_key (mkS 0 0 0 0 54 0 0 10 11 0 0 1 0) at_rest with Ok s => s!D_REG mod 256 = 171 | _ => False end.
Proof. by_vm. Qed.

(** C63 fails: with wrong parity in the address the key is not compared, but the store is made. *)
Definition locked : cpu := at_rest <[read_call := 1]> <[Q_REG := 16]> <[R_REG := 7]>.
Definition store_word : ros := mkW 0 0 0 2 0 2 1 0 0 0 0 0 0 0 0.
Theorem C63_refuted : (locked <[M_REG := 0]>)!Q_REG = 16 /\ key_of (locked <[M_REG := 0]>) = 0 /\
  match micro 0 off store_word (locked <[M_REG := 0]>) with Ok s => nth 0 (mm s) 0 = 7 | _ => False end.
Proof. by_vm. Qed.
Print Assumptions C63_refuted.
(** With an address of good parity, a store order in the cycle in which the byte would be read is stopped. *)
Theorem C63_partial : forall ti sw w s s', micro ti sw w s = Ok s' -> storage_ok s -> reading s -> protected s -> CM w = 2 ->
  same_storage s s' /\ s'!stg_prot_req = 1.
Proof. exact store_stopped. Qed.
Print Assumptions C63_partial.
(** And an access that reads the byte leaves it as it was, whatever the microinstructions between the read and the write try to
    put in R. *)
Theorem C63_access_partial : forall ti sw w ws s s', micros (ws ++ [(ti, sw, w)]) s = Ok s' -> storage_ok s -> reading s -> protected s ->
  Forall (fun e => let '(_, w) := e in CM w = 1 /\ CU w <> 1 /\ CD w <> 3) ws -> CM w = 0 -> CU w <> 1 ->
  0 <= nth (Z.to_nat s!MN_REG) (mm s) 0 < 65536 -> 0 <= key_of s < 16 -> same_storage s s'.
Proof.
  intros ti sw w ws s s' H SO RD P F C U V K. eapply regenerate; eauto. eapply Forall_impl; [|exact F]. intros ((t0, sw0), w0) (A & B & D). repeat split; auto.
Qed.
Print Assumptions C63_access_partial.
Lemma at_rest_ok s : mm s = mm at_rest -> ls s = ls at_rest -> mp s = mp at_rest -> mem_max s = 65535 -> storage_ok s.
Proof. intros A B C D. split; [|rewrite B, C; by_vm]. exists 16. rewrite A, D. split; [lia|]. by_vm. Qed.
Example C63_ex : storage_ok locked /\ reading locked /\ protected locked /\
  match micro 0 off store_word locked with Ok s => nth 0 (mm s) 0 = 256 | _ => False end /\
  match micros [(0, off, mkW 0 0 0 1 0 8 1 0 7 3 3 0 0 0 0); (0, off, mkW 0 0 0 0 0 2 1 0 0 0 0 0 0 0 0)] (locked <[D_REG := 200]>) with Ok s => nth 0 (mm s) 0 = 256 | _ => False end.
Proof.
  split; [apply at_rest_ok; reflexivity|]. split; [unfold reading, odd9; repeat split; try discriminate; cbn; lia|].
  split; [unfold protected; repeat split; try reflexivity; vm_compute; discriminate|]. by_vm.
Qed.

(** C64 fails: a count of zero, an address that wraps, the direction when the microprogram works for the other channel, and
    read backward with modifier bits. *)
Definition sharing : cpu := at_rest <[sel_share_req := 1]> <[sel_read_cycle false := 1]>.
Theorem C64_count_refuted : sel_step sharing = UB.
Proof. by_vm. Qed.
Print Assumptions C64_count_refuted.
Theorem C64_address_refuted : match sel_step (sharing <[GD false := 1]> <[GU false := 511]> <[GV false := 511]>) with Ok s => sel_step s = UB | _ => False end.
Proof. by_vm. Qed.
Print Assumptions C64_address_refuted.
Theorem C64_direction_refuted :
  match sel_step (sharing <[GD false := 2]> <[GV false := 16]> <[GG false := 2]> <[GG true := 268]> <[ch_sel := 1]>) with
  | Ok s => match sel_step s with Ok s' => pair16 s'!(GU false) s'!(GV false) = 15 | _ => False end | _ => False end /\
  match sel_step (sharing <[GD false := 2]> <[GV false := 16]> <[GG false := 44]>) with
  | Ok s => match sel_step s with Ok s' => pair16 s'!(GU false) s'!(GV false) = 17 | _ => False end | _ => False end.
Proof. by_vm. Qed.
Print Assumptions C64_direction_refuted.
(** What holds, with 64K bytes, a count of at least one, an address that does not wrap, and the direction as the command of the
    channel the microprogram works for says (268 is read backward without modifiers). *)
Theorem C64_partial : forall c s, s!sel_share_req = (if c : bool then 2 else 1) -> s!(sel_read_cycle c) <> 0 ->
  Z.of_nat (length (mm s)) = 65536 -> length (mp s) = 256%nat -> 0 <= s!(GU c) < 512 -> 1 <= pair16 s!(GC c) s!(GD c) ->
  (if s!(GG (ch s)) =? 268 then 1 <= pair16 s!(GU c) s!(GV c) else pair16 s!(GU c) s!(GV c) < 65535) ->
  exists s1 s2, sel_step s = Ok s1 /\ sel_step s1 = Ok s2 /\ odd9 s2!(GC c) /\ odd9 s2!(GD c) /\ odd9 s2!(GU c) /\ odd9 s2!(GV c) /\
    pair16 s2!(GC c) s2!(GD c) = pair16 s!(GC c) s!(GD c) - 1 /\
    pair16 s2!(GU c) s2!(GV c) = pair16 s!(GU c) s!(GV c) + (if s!(GG (ch s)) =? 268 then - 1 else 1) /\ s1!MN_REG = pair16 s!(GU c) s!(GV c).
Proof. exact sel_byte. Qed.
Print Assumptions C64_partial.
Example C64_ex : let s := sharing <[GC false := 1]> <[GV false := 511]> <[GG false := 2]> in
  s!sel_share_req = 1 /\ s!(sel_read_cycle false) = 1 /\ pair16 s!(GC false) s!(GD false) = 256 /\ pair16 s!(GU false) s!(GV false) = 255 /\
  match sel_step s with Ok s1 => match sel_step s1 with Ok s2 => pair16 s2!(GC false) s2!(GD false) = 255 /\ pair16 s2!(GU false) s2!(GV false) = 256 | _ => False end | _ => False end.
Proof. by_vm. Qed.

(** C76 fails: a branch to UV (CK = 17) with U over 15 leaves the control store. *)
Theorem C76_refuted : let w := mkW 0 0 0 1 0 2 1 17 0 0 0 0 0 0 0 in word_ok w /\ rom_regs at_rest /\
  match micro 0 off w (at_rest <[U_REG := 16]>) with Ok s => forall rom, length rom = Z.to_nat 4096 -> fetch rom s = UB | _ => False end.
Proof.
  split; [words|]. split; [unfold rom_regs, in_rom; cbn; lia|].
  assert (W : match micro 0 off (mkW 0 0 0 1 0 2 1 17 0 0 0 0 0 0 0) (at_rest <[U_REG := 16]>) with Ok s => s!WX = 4096 | _ => False end) by by_vm.
  destruct (micro 0 off (mkW 0 0 0 1 0 2 1 17 0 0 0 0 0 0 0) (at_rest <[U_REG := 16]>)) as [s| |]; [|contradiction W|contradiction W].
  intros rom L. apply outside_rom; [exact L|]. lia.
Qed.
Print Assumptions C76_refuted.
(** Otherwise the next address is in the control store, and so are the addresses saved for the ends of the traps. *)
Theorem C76_partial : forall ti sw w s s', micro ti sw w s = Ok s' -> s!dead_cycle = 0 -> word_ok w -> CK w <> 17 \/ s!U_REG mod 256 < 16 ->
  in_rom s!GWX -> in_rom s!FWX -> 0 <= s!SEL_X6X7 < 4 -> 0 <= s!MPX_X6X7 < 4 ->
  in_rom s'!WX /\ s'!GWX = s!GWX /\ s'!FWX = s!FWX /\ s'!SEL_X6X7 = s!SEL_X6X7 /\ s'!MPX_X6X7 = s!MPX_X6X7 /\ s'!dead_cycle = 0.
Proof. exact micro_rom. Qed.
Print Assumptions C76_partial.
Example C76_ex : rom_regs at_rest /\ match micro 0 off (mkW 171 1 1 1 0 2 1 0 0 0 0 0 0 0 0) (at_rest <[WX := 3000]>) with Ok s => s!WX = 2816 + 171 | _ => False end.
Proof. split; [unfold rom_regs, in_rom; cbn; lia|by_vm]. Qed.

(** C77: a trap: the first that waits and is not held off, its request is taken off, the processor goes to its address, storage
    stays, and the channels save where the program was. *)
Theorem C77 : forall ti sw rom s w k ms a, fetch rom s = Ok w -> s!priority_lch = 0 -> s!read_call = 0 -> s!allow_write = 0 -> s!sel_share_req = 0 -> s!sel_ros_rest = 0 -> s!mpx_ros_rest = 0 ->
  s!sel_chain_pulse = 0 -> s!mpx_share_pulse = 0 ->
  chosen (on s suppr_half_trap_lch || on s gate_sw_to_wx) s!priority_stack_reg s!H_REG = Some (k, ms, a) ->
  exists s', cycle ti sw rom s = Ok s' /\ same_storage s s' /\ s'!priority_lch = 1 /\ s'!dead_cycle = 0 /\
    (k <> 6 -> s'!WX = a) /\ (k = 6 -> (s'!WX = a \/ s'!WX = Z.lor a 3) /\ s'!GWX = s!WX) /\ (k = 7 -> s'!FWX = s!WX) /\
    (forall j, 0 <= j <= 7 -> ibit s'!priority_stack_reg j = (if j =? k then false else ibit s!priority_stack_reg j)).
Proof. exact trap_cycle. Qed.
Print Assumptions C77.
(** Without one, during another trap and in the middle of a storage access the microinstruction is executed. *)
Theorem C77_none : forall ti sw rom s w, fetch rom s = Ok w -> s!sel_share_req = 0 -> s!clock_start_lch <> 0 ->
  s!priority_lch <> 0 \/ s!read_call <> 0 \/ s!allow_write <> 0 \/ chosen (on s suppr_half_trap_lch || on s gate_sw_to_wx) s!priority_stack_reg s!H_REG = None ->
  exists t, cycle ti sw rom s = micro ti sw w t /\ same_storage s t /\ (forall r, outside L_trap r -> t!r = s!r) /\ t!any_priority_pulse = 0 /\ t!priority_stack_reg = s!priority_stack_reg.
Proof. exact no_trap_cycle. Qed.
Print Assumptions C77_none.
Example C77_ex : let s := at_rest <[priority_stack_reg := 112]> <[H_REG := 128]> in
  chosen (on s suppr_half_trap_lch || on s gate_sw_to_wx) s!priority_stack_reg s!H_REG = Some (2, [4], 1) /\ fetch [none] s = Ok none /\
  match cycle 0 off [none] s with Ok s' => s'!WX = 1 /\ s'!priority_stack_reg = 80 | _ => False end.
Proof. by_vm. Qed.

(** C78: the registers that take the result of the adder keep odd parity in every run without the order that makes the parity even. *)
Theorem C78 : forall ws, Forall (fun e => let '(_, w) := e in word_ok w /\ CK w <> 24) ws -> forall s s', micros ws s = Ok s' -> s!dead_cycle = 0 -> s!even_parity = 0 ->
  (forall r, In r kept -> odd9 s!r) -> forall r, In r kept -> odd9 s'!r.
Proof. exact micros_kept. Qed.
Print Assumptions C78.
Example C78_ex : (forall r, In r kept -> odd9 at_rest!r) /\ at_rest!dead_cycle = 0 /\ at_rest!even_parity = 0 /\ word_ok add_word /\ CK add_word <> 24 /\
  match micros [(0, off, add_word); (0, off, add_word)] (at_rest <[L_REG := 100]>) with Ok s => s!D_REG = 200 | _ => False end.
Proof.
  split; [intros r R; cbn [In kept] in R; repeat destruct R as [<-|R]; try contradiction; split; vm_compute; intuition discriminate|].
  split; [reflexivity|]. split; [reflexivity|]. split; [words|]. split; [discriminate|]. by_vm.
Qed.

(** C79: reading a byte and writing it back, with any microinstructions between that do not set R or the key, leaves storage and
    keys as they were. *)
Theorem C79 : forall ti sw w ws s s', micros (ws ++ [(ti, sw, w)]) s = Ok s' -> storage_ok s -> reading s ->
  Forall (fun e => let '(_, w) := e in CM w = 1 /\ CU w <> 1 /\ CD w <> 3 /\ CD w <> 7) ws -> CM w = 0 -> CU w <> 1 ->
  0 <= nth (Z.to_nat s!MN_REG) (mm s) 0 < 65536 -> 0 <= key_of s < 16 ->
  same_storage s s' /\ s'!allow_write = 0 /\ s'!read_call = 0.
Proof.
  intros ti sw w ws s s' H SO RD F C U V K. eapply regenerate; eauto. eapply Forall_impl; [|exact F]. intros ((t0, sw0), w0) (A & B & D & E). repeat split; auto.
Qed.
Print Assumptions C79.
Example C79_ex : let s := at_rest <[read_call := 1]> <[N_REG := 1]> <[MN_REG := 1]> in storage_ok s /\ reading s /\
  match micros ([(0, off, add_word); (0, off, none)] ++ [(0, off, mkW 0 0 0 0 0 2 1 0 0 0 0 0 0 0 0)]) s with Ok s' => s'!allow_write = 0 /\ nth 1 (mm s') 0 = 256 | _ => False end.
Proof. split; [apply at_rest_ok; reflexivity|]. split; [unfold reading, odd9; repeat split; try discriminate; cbn; lia|]. by_vm. Qed.

(** C80 fails: the check of the address uses the address of the order before. *)
Definition small : cpu := mkC (rg at_rest) (repeat 256 (Z.to_nat 8192)) (ls at_rest) (mp at_rest) 8191.
Definition read_word : ros := mkW 0 0 0 3 0 2 1 0 0 0 0 0 0 0 0.
Theorem C80_refuted :
  match micro 0 off read_word (small <[I_REG := 128]>) with Ok s => s!MN_REG = 32768 /\ s!mem_wrap_req = 0 /\ s!read_call = 1 | _ => False end /\
  match micro 0 off read_word (small <[MN_REG := 32768]>) with Ok s => s!MN_REG = 0 /\ s!mem_wrap_req = 1 /\ s!read_call = 0 | _ => False end.
Proof. by_vm. Qed.
Print Assumptions C80_refuted.
(** What holds: nothing is read at an address that is not installed, and R keeps its value. *)
Theorem C80_partial : forall ti sw w s s', micro ti sw w s = Ok s' -> storage_ok s -> s!dead_cycle = 0 -> s!read_call <> 0 -> s!store = MAIN -> mem_max s < s!MN_REG < 65536 -> CM w = 1 ->
  same_storage s s' /\ s'!R_REG = s!R_REG.
Proof. exact read_beyond. Qed.
Print Assumptions C80_partial.
Example C80_ex : let s := small <[MN_REG := 32768]> <[read_call := 1]> in storage_ok s /\ s!store = MAIN /\ match micro 0 off none s with Ok s' => s'!R_REG = 256 | _ => False end.
Proof. split; [|by_vm]. split; [exists 13; split; [lia|by_vm]|by_vm]. Qed.

(** C81: the branch on valid decimal digits. *)
Theorem C81 : forall ti sw w s s', micro ti sw w s = Ok s' -> s!dead_cycle = 0 -> CL w = 5 -> Z.testbit (CN w) 0 = false ->
  CK w <> 17 -> CK w <> 19 -> CK w <> 21 -> CK w <> 26 -> CD w <> 5 -> CD w <> 7 -> s!sel_ros_rest = 0 -> s!mpx_ros_rest = 0 ->
  Z.testbit s'!WX 0 = (hi s'!R_REG <=? 9) && (lo s'!R_REG <=? 9).
Proof. exact micro_vdd. Qed.
Print Assumptions C81.
Example C81_ex :
  match micro 0 off (mkW 8 0 5 1 0 2 1 0 0 0 0 0 0 0 0) (at_rest <[R_REG := 409]>) with Ok s => s!WX = 9 | _ => False end /\
  match micro 0 off (mkW 8 0 5 1 0 2 1 0 0 0 0 0 0 0 0) (at_rest <[R_REG := 154]>) with Ok s => s!WX = 8 | _ => False end.
Proof. by_vm. Qed.

(** C82 fails: decimal words with digits that are not decimal or with a logical function, and a write at an address that is
    not installed read or write outside of arrays. *)
Theorem C82_decimal_refuted : micro 0 off (mkW 0 0 0 1 0 8 1 0 8 3 3 3 0 0 0) (at_rest <[L_REG := 426]>) = UB /\ micro 0 off (mkW 0 0 0 1 0 2 1 0 0 0 0 3 2 0 0) at_rest = UB.
Proof. by_vm. Qed.
Print Assumptions C82_decimal_refuted.
Theorem C82_storage_refuted : storage_ok small /\
  micros [(0, off, read_word); (0, off, none); (0, off, mkW 0 0 0 0 0 2 1 0 0 0 0 0 0 0 0)] (small <[I_REG := 128]>) = UB.
Proof. split; [split; [exists 13; split; [lia|by_vm]|by_vm]|by_vm]. Qed.
Print Assumptions C82_storage_refuted.
(** What holds: with 64K bytes and silent channels, a control store without decimal words and without branches to UV runs for
    ever without an access outside of an array, with any traps waiting. *)
Theorem C82_partial : forall rom io, rom_ok rom -> Forall (fun e => switches_ok (snd e)) io -> forall s, running s ->
  exists s', cycles io rom s = Ok s' /\ running s'.
Proof. intros rom io A B s R. apply okr_inv. exact (cycles_running rom io A B s R). Qed.
Print Assumptions C82_partial.
Example C82_ex : rom_ok (repeat none (Z.to_nat 4096)) /\ switches_ok off /\ running at_rest.
Proof.
  split; [split; [apply repeat_length|apply Forall_forall; intros w I; apply repeat_spec in I; subst w; repeat split; cbn; lia]|]. split; [words|].
  split; [|split; [unfold rom_regs, in_rom; cbn; lia|split; reflexivity]]. split; [|vm_compute; intros H; contradiction H; reflexivity].
  split; [by_vm|]. cbn. lia.
Qed.

(** C83 fails: after a stopped store the next write order stores R in the protected byte. *)
Theorem C83_refuted : storage_ok locked /\ reading locked /\ protected locked /\
  match micros [(0, off, store_word); (0, off, mkW 0 0 0 0 0 2 1 0 0 0 0 0 0 0 0)] locked with Ok s => nth 0 (mm s) 0 = 7 | _ => False end.
Proof. destruct C63_ex as (A & B & C & _). split; [exact A|]. split; [exact B|]. split; [exact C|]. by_vm. Qed.
Print Assumptions C83_refuted.

(** C84 fails: the byte the store key puts in storage always has wrong parity. *)
Theorem C84_refuted : forall sw s, switches_ok sw -> E_SW sw = 32 -> s!allow_write = 0 -> 0 <= s!N_REG < 256 -> Z.of_nat (length (mm s)) = 65536 ->
  exists s1, store_key sw s = Ok s1 /\ odd_bits 9 (nth (Z.to_nat (256 * (16 * C_SW sw + D_SW sw) + s!N_REG)) (mm s1) 0) = false.
Proof. exact store_parity. Qed.
Print Assumptions C84_refuted.
Example C84_ex : switches_ok keys /\ E_SW keys = 32 /\ (at_rest <[N_REG := 7]>)!allow_write = 0 /\ (at_rest <[N_REG := 7]>)!N_REG = 7.
Proof. split; [words|]. by_vm. Qed.

(** C85: the write half of a selector cycle changes at most the byte at the data address: input data unless skip is on, and if
    the key is wrong the old byte. *)
Theorem C85 : forall c s s', sel_write c s = Ok s' -> 0 <= s!MN_REG < Z.of_nat (length (mm s)) ->
  let input := on s (sel_gr_full c) && is_in s!(GG c) in
  let wrong := negb (hi s!(GK c) =? 0) && negb (hi s!(GK c) =? lo s!Q_REG) in
  ls s' = ls s /\ mp s' = mp s /\
  mm s' = (if input && negb (ibit s!(GF c) 3) then upd (mm s) (Z.to_nat s!MN_REG) (if wrong then u16 (nth (Z.to_nat s!MN_REG) (mm s) 0) else s!(GR c)) else mm s).
Proof. exact sel_write_data. Qed.
Print Assumptions C85.
Example C85_ex : let s := at_rest <[sel_gr_full false := 1]> <[GG false := 2]> <[GR false := 7]> <[MN_REG := 5]> in
  match sel_write false s with Ok s' => nth 5 (mm s') 0 = 7 /\ nth 4 (mm s') 0 = 256 | _ => False end /\
  match sel_write false (s <[GK false := 16]>) with Ok s' => nth 5 (mm s') 0 = 256 | _ => False end.
Proof. by_vm. Qed.

(** C86 fails: the branch on interrupts looks at the latch of channel 1 for channel 2: an interrupt of channel 2 alone is not
    seen, and one of channel 1, masked off, is taken for one of channel 2. *)
Definition int_word : ros := mkW 15 0 0 1 0 2 1 26 0 0 0 0 0 0 0.
Theorem C86_refuted :
  match micro 0 off int_word (at_rest <[MASK := 32]> <[sel_intrp_lch true := 1]>) with Ok s => s!WX = 15 | _ => False end /\
  match micro 0 off int_word (at_rest <[MASK := 32]> <[sel_intrp_lch false := 1]>) with Ok s => s!WX = 13 | _ => False end.
Proof. by_vm. Qed.
Print Assumptions C86_refuted.
