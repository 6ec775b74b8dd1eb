(** The 2030 processor, /repo/src/model2030/cpu2030.c and model2030.h: one microinstruction (lines 1039-2408), a storage cycle
    of a selector channel (760-868), the choice of a trap (724-758), and the display and store keys (442-660).
    All registers and latches are integers, as in C; [reg] has one name for each of them, the registers of the selector channels
    one for each channel.  Left out: log messages, the console (what it gives to the A bus is an argument), the scan of the
    channels (2440-2790) and the handling of the other keys (256-440). *)
From Verif Require Export Base.Bits Xlat.Tables.

Inductive reg :=
| Abus | Bbus | Alu_out | C_REG | D_REG | F_REG | G_REG | H_REG | L_REG | Q_REG | R_REG | S_REG | T_REG | MC_REG | XX_REG
| MASK | ASCII | M_REG | N_REG | MN_REG | I_REG | J_REG | U_REG | V_REG | SA_REG | STAT_REG | WX | FWX | GWX
| MPX_X6X7 | SEL_X6X7 | mpx_ros_rest | sel_ros_rest | dead_cycle | O_REG | FI | MPX_TAGS | MPX_TI | FT | TI | TE | TT | TA | JI | JE
| ch_sel | ch_sav | GHY | GHZ | wait | load_mode | allow_write | store | end_of_e_cycle | t_request | match_
| GE (c : bool) | GF (c : bool) | GG (c : bool) | GI (c : bool) | GK (c : bool) | GR (c : bool) | GO (c : bool)
| GC (c : bool) | GD (c : bool) | GU (c : bool) | GV (c : bool) | SEL_TAGS (c : bool) | SEL_TI (c : bool)
(* static variables of cpu2030.c:144-208 *)
| suppr_half_trap_lch | cf_stop | process_stop | read_call | proc_stop_loop_active | protect_loc | interrupt | any_mach_chk
| priority_bus | priority_stack_reg | priority_lch | any_priority_lch | any_priority_pulse | force_ij_req | hard_stop
| second_err_stop | gate_sw_to_wx | allow_a_reg_chk | first_mach_chk_req | suppr_a_reg_chk | mach_chk_pulse | stg_prot_req
| inh_stg_prot | mem_wrap_req | i_wrap_cpu | u_wrap_cpu | u_wrap_mpx | wrap_buf | alu_chk | mpx_share_pulse | mpx_cmd_start
| mpx_start_sel | mpx_supr_out_lch | chk_or_diag_stop_sw | even_parity | mem_prot | timer_update | tc | sel_ros_req
| sel_chnl_chk | sel_chain_pulse | sel_share_req
| sel_read_cycle (c : bool) | sel_write_cycle (c : bool) | sel_gr_full (c : bool) | sel_halt_io (c : bool) | sel_poll_ctrl (c : bool)
| sel_cnt_rdy_not_zero (c : bool) | sel_cnt_rdy_zero (c : bool) | sel_diag_tag_ctrl (c : bool) | sel_diag_mode (c : bool)
| sel_bus_out_ctrl (c : bool) | sel_chan_busy (c : bool) | sel_intrp_lch (c : bool) | sel_status_stop_cond (c : bool)
| sel_chain_req (c : bool) | sel_chain_det (c : bool)
| carries | clock_start_lch.
Scheme Equality for reg.

(** The state: registers, main storage M, local storage LS[4096], protection storage MP[256], and mem_max. *)
Record cpu := mkC { rg : reg -> Z; mm : list Z; ls : list Z; mp : list Z; mem_max : Z }.
Definition get (s : cpu) (r : reg) : Z := rg s r.
Definition set (r : reg) (v : Z) (s : cpu) : cpu := mkC (fun x => if reg_beq x r then v else rg s x) (mm s) (ls s) (mp s) (mem_max s).
Definition set_mm (m : list Z) (s : cpu) : cpu := mkC (rg s) m (ls s) (mp s) (mem_max s).
Definition set_ls (m : list Z) (s : cpu) : cpu := mkC (rg s) (mm s) m (mp s) (mem_max s).
Definition set_mp (m : list Z) (s : cpu) : cpu := mkC (rg s) (mm s) (ls s) m (mem_max s).
Notation "s ! r" := (get s r) (at level 9, format "s ! r").
Notation "s <[ r := v ]>" := (set r v s) (at level 10, r at next level, left associativity, format "s <[ r := v ]>").
(** a[i] = v; out of bounds is undefined. *)
Definition put (l : list Z) (i v : Z) : res (list Z) :=
  if (i <? 0) || (Z.of_nat (length l) <=? i) then UB else Ok (upd l (Z.to_nat i) v).

(** A word of the control store, model2030.h:34-50. *)
Record ros := mkW { CN : Z; CH : Z; CL : Z; CM : Z; CU : Z; CA : Z; CB : Z; CK : Z; CD : Z; CF : Z; CG : Z; CV : Z; CC : Z; CS : Z; PK : Z }.
(** The switches. *)
Record switches := mkS { A_SW : Z; B_SW : Z; C_SW : Z; D_SW : Z; E_SW : Z; F_SW : Z; G_SW : Z; H_SW : Z; J_SW : Z;
  CHK_SW : Z; PROC_SW : Z; RATE_SW : Z; MATCH_SW : Z }.

Definition MAIN := 1. Definition LOCAL := 2. Definition MPX := 4.
Definition u8 (x : Z) : Z := x mod 256.
Definition u16 (x : Z) : Z := x mod 65536.
Definition on (s : cpu) (r : reg) : bool := negb (s!r =? 0).
(** x & m != 0. *)
Definition bit (x m : Z) : bool := negb (Z.land x m =? 0).
Definition orr (r : reg) (m : Z) (s : cpu) : cpu := s <[r := Z.lor s!r m]>.
(** r &= ~m. *)
Definition clr (r : reg) (m : Z) (s : cpu) : cpu := s <[r := Z.land s!r (Z.lnot m)]>.
Definition b2z (b : bool) : Z := if b then 1 else 0.
(** odd_parity[x & 0xff]: always inside the table. *)
Definition op (x : Z) : Z := nth (Z.to_nat (Z.land x 255)) odd_parity 0.
(** ((odd_parity[x & 0xff] ^ x) & 0x100) != 0. *)
Definition bad (x : Z) : bool := bit (Z.lxor (op x) x) 256.
(** x | odd_parity[x]: x may be outside the table. *)
Definition wpar (x : Z) : res Z := let* p := tab odd_parity x in Ok (Z.lor x p).
Definition both (m n : Z) : Z := Z.lor (Z.shiftl (Z.land m 255) 8) (Z.land n 255).
(** ch_sel as an index: the control store has one bit for it. *)
Definition ch (s : cpu) : bool := on s ch_sel.

(** *** Storage *)
(** cpu2030.c:1039-1099: read storage for the read order of the cycle before. *)
Definition mem_read (w : ros) (s : cpu) : res cpu :=
  if negb (on s read_call) || on s dead_cycle then Ok s
  else
    let s := s <[protect_loc := 0]> <[mem_prot := 0]> <[stg_prot_req := 0]> in
    let s := if bad s!M_REG || bad s!N_REG then orr MC_REG 32 s <[mem_prot := 1]> else s in
    let s := if (s!store =? MAIN) && bit (Z.lxor 65535 (mem_max s)) s!MN_REG then s <[mem_prot := 1]> else s in
    let* s :=
      if (s!store =? MAIN) && negb (on s mem_prot) then
        let* k := tab (mp s) s!SA_REG in
        let s := s <[Q_REG := Z.lor (Z.land s!Q_REG 240) (Z.land k 15)]> in
        Ok (if negb (on s inh_stg_prot) && negb (bit s!H_REG 4) && bit s!Q_REG 240 && bit (Z.lxor (Z.shiftr s!Q_REG 4) s!Q_REG) 15 then
              let s := s <[protect_loc := 1]> in if CM w =? 2 then s <[stg_prot_req := 1]> else s
            else s)
      else Ok s in
    let* s := if s!store =? MPX then let* k := tab (mp s) s!SA_REG in Ok (s <[Q_REG := Z.lor (Z.land s!Q_REG 240) (Z.land k 15)]>) else Ok s in
    let dst := if CU w =? 1 then GR (ch s) else R_REG in
    let* s :=
      if negb (CM w =? 2) && negb (on s mem_prot) then
        if s!store =? MAIN then
          let* v := tab (mm s) s!MN_REG in
          let* m := put (mm s) s!MN_REG 0 in Ok (set_mm m (s <[dst := u16 v]>))
        else if (s!store =? MPX) || (s!store =? LOCAL) then
          let* v := tab (ls s) s!MN_REG in
          let* m := put (ls s) s!MN_REG 0 in Ok (set_ls m (s <[dst := v]>))
        else Ok s
      else Ok s in
    Ok (s <[allow_write := 1]> <[read_call := 0]>).

(** cpu2030.c:1101-1137: the write or store order. *)
Definition mem_write (w : ros) (s : cpu) : res cpu :=
  if ((CM w =? 2) && negb (on s stg_prot_req) || (CM w =? 0)) && on s allow_write then
    let v := if CU w =? 1 then s!(GR (ch s)) else s!R_REG in
    let* s :=
      if s!store =? MAIN then
        let* m := put (mm s) s!MN_REG v in
        let* k := put (mp s) s!SA_REG (Z.land s!Q_REG 15) in Ok (set_mp k (set_mm m s))
      else if s!store =? MPX then
        let* k := put (mp s) s!SA_REG (Z.land s!Q_REG 15) in
        let* m := put (ls s) (Z.land s!MN_REG 2047) v in Ok (set_ls m (set_mp k s))
      else if s!store =? LOCAL then
        let* m := put (ls s) (Z.land s!MN_REG 2047) v in Ok (set_ls m s)
      else Ok s in
    Ok (s <[allow_write := 0]> <[read_call := 0]> <[inh_stg_prot := 0]>)
  else Ok s.

(** cpu2030.c:1138-1171: the address of a read order. *)
Definition read_addr (w : ros) (s : cpu) : res cpu :=
  if CM w =? 3 then Ok (s <[M_REG := s!I_REG]> <[N_REG := s!J_REG]> <[inh_stg_prot := 0]>)
  else if CM w =? 4 then Ok (s <[M_REG := s!U_REG]> <[N_REG := s!V_REG]> <[inh_stg_prot := 0]>)
  else if CM w =? 5 then Ok (s <[M_REG := 256]> <[N_REG := s!T_REG]> <[inh_stg_prot := 1]>)
  else if CM w =? 6 then
    let n := Z.lor (Z.lor (Z.lor 136 (Z.shiftr (Z.land (CN w) 128) 2)) (Z.shiftl (Z.land (CK w) 8) 1)) (Z.land (CK w) 7) in
    let n := if ch s && ((Z.land (CK w) 30 =? 6) || (CK w =? 5)) then Z.lor n 16 else n in
    let* n := wpar n in
    Ok (s <[M_REG := 256]> <[N_REG := n]> <[inh_stg_prot := 1]>)
  else if CM w =? 7 then Ok (s <[M_REG := s!(GU (ch s))]> <[N_REG := s!(GV (ch s))]> <[inh_stg_prot := 0]>)
  else Ok s.

(** cpu2030.c:1173-1231: which storage, and the request. The range of the address is checked before MN is set. *)
Definition read_order (w : ros) (s : cpu) : res cpu :=
  if CM w <? 3 then Ok s
  else
    let s := s <[store := MAIN]> <[mem_wrap_req := 0]> in
    let* s :=
      if CU w =? 0 then
        let s := if bit (Z.lxor 65535 (mem_max s)) s!MN_REG then s <[mem_wrap_req := 1]> else s in
        let s := if on s i_wrap_cpu && (CM w =? 3) && negb (bit s!H_REG 2) then s <[mem_wrap_req := 1]> else s in
        let s := if on s u_wrap_cpu && (CM w =? 4) && negb (bit s!H_REG 2) then s <[mem_wrap_req := 1]> else s in
        Ok (if on s u_wrap_mpx && (CM w =? 4) && bit s!H_REG 2 then s <[mem_wrap_req := 1]> else s)
      else if CU w =? 1 then
        let* m := wpar 224 in Ok (s <[store := LOCAL]> <[M_REG := m]>)
      else if CU w =? 2 then
        let* m := wpar s!XX_REG in
        Ok (s <[store := MPX]> <[M_REG := m]> <[SA_REG := u8 (Z.lor (Z.land s!XX_REG 224) (Z.land (Z.shiftr s!N_REG 3) 31))]>)
      else if (CU w =? 3) && negb (bit s!G_REG 192) then
        let* m := wpar 224 in Ok (s <[M_REG := m]> <[store := LOCAL]>)
      else Ok s in
    let s := if negb (on s allow_write) && negb (on s mem_wrap_req) then s <[read_call := 1]> else s in
    let s := if s!store =? MAIN then s <[MN_REG := both s!M_REG s!N_REG]> <[SA_REG := Z.lor 224 (Z.land (Z.shiftr s!M_REG 3) 31)]>
             else s <[MN_REG := Z.lor (Z.shiftl (Z.land s!M_REG 224) 3) (Z.land s!N_REG 255)]> in
    Ok (if bad s!M_REG || bad s!N_REG then orr MC_REG 32 s <[mem_prot := 1]> else s).

(** cpu2030.c:1101-1232. *)
Definition mem_order (w : ros) (s : cpu) : res cpu :=
  if on s dead_cycle then Ok s
  else let* s := mem_write w s in let* s := read_addr w s in read_order w s.

(** *** The next address, cpu2030.c:1234-1421 *)
Definition x6 (w : ros) (s : cpu) : bool :=
  match CH w with
  | 1 => true | 2 => bit s!R_REG 128 | 3 => negb (bit s!V_REG 3)
  | 4 => bit s!STAT_REG 64 | 5 => bit s!STAT_REG 32 | 6 => bit s!STAT_REG 4
  | 7 => bit s!S_REG 128 | 8 => bit s!S_REG 64 | 9 => bit s!S_REG 32 | 10 => bit s!S_REG 8 | 11 => bit s!S_REG 2
  | 12 => bit s!G_REG 128 | 13 => bit s!G_REG 32 | 14 => bit s!G_REG 8 | 15 => bit s!G_REG 2
  | _ => false
  end.
(** The branch on valid decimal digits, line 1323. *)
Definition vdd (r : Z) : bool := negb (bit (Z.land (Z.lor r (Z.shiftl r 1)) (Z.shiftr r 1)) 68).
Definition x7 (w : ros) (s : cpu) : bool :=
  match CL w with
  | 1 | 2 => true | 3 => bit s!STAT_REG 128 | 4 => bit s!STAT_REG 16 | 5 => vdd s!R_REG
  | 6 => bit s!STAT_REG 2 | 7 => bit s!STAT_REG 8
  | 8 => bit s!G_REG 1 | 9 => bit s!S_REG 16 | 10 => bit s!S_REG 4 | 11 => bit s!S_REG 1
  | 12 => bit s!G_REG 64 | 13 => bit s!G_REG 16 | 14 => bit s!G_REG 4 | 15 => on s interrupt
  | _ => false
  end.
Definition sel_int (s : cpu) (lch : bool) (c : bool) : bool := on s (sel_intrp_lch lch) || bit s!(GF c) 8.
(** The branches of the CK field, cpu2030.c:1370-1416. *)
Definition ck_branch (w : ros) (s : cpu) (n : Z) : Z :=
  match CK w with
  | 17 => both s!U_REG s!V_REG
  | 19 => let n := if on s i_wrap_cpu then Z.land n 4093 else n in if on s u_wrap_mpx then Z.land n 4094 else n
  | 21 => if bit s!STAT_REG 4 then Z.land n 3840 else n
  | 25 => if on s ASCII then Z.land n 4093 else n
  | 26 => if bit s!MASK 64 && sel_int s false false then Z.land n 4094
          else if bit s!MASK 32 && sel_int s false true then Z.land n 4093   (* line 1401: the latch of channel 1 again *)
          else if bit s!MASK 1 && on s F_REG || on s timer_update then Z.land n 4092 else n
  | _ => n
  end.
Definition next_wx (w : ros) (s : cpu) : Z :=
  let n := Z.lor (Z.land s!WX 3840) (CN w) in
  let n := if x6 w s then Z.lor n 2 else n in
  let n := if CL w =? 2 then Z.lor (Z.lor (Z.shiftl (Z.land (CA w) 15) 8) (Z.land n 255)) 1 else if x7 w s then Z.lor n 1 else n in
  let n := ck_branch w s n in
  if (CM w <? 3) && (CU w =? 2) then Z.lor (Z.land n 255) (Z.shiftl (Z.land (CK w) 15) 8) else n.

(** cpu2030.c:1423-1454: the dead cycle of a trap saves where the program was and goes to the trap routine. *)
Definition dead (s : cpu) (n : Z) : cpu :=
  let s :=
    if on s sel_chain_pulse then
      let s := s <[GWX := s!WX]> <[SEL_X6X7 := Z.land n 3]> <[sel_chain_pulse := 0]> in
      if bit s!sel_ros_req 1 then
        let s := s <[ch_sel := 0]> <[sel_ros_req := Z.land s!sel_ros_req 2]> in
        if on s (sel_chain_req false) then orr priority_bus 3 s else s
      else
        let s := s <[ch_sel := 1]> <[sel_ros_req := Z.land s!sel_ros_req 1]> in
        if on s (sel_chain_req true) then orr priority_bus 3 s else s
    else if on s mpx_share_pulse then
      let s := s <[FWX := s!WX]> <[MPX_X6X7 := Z.land n 3]> in
      let s := if s!t_request =? 0 then orr FT 2 (orr MPX_TAGS 33792 s) else s in
      s <[mpx_share_pulse := 0]>
    else s in
  s <[dead_cycle := 0]> <[WX := s!priority_bus]>.
(** cpu2030.c:1456-1468. *)
Definition go (s : cpu) (n : Z) : cpu :=
  let '(s, n) := if on s sel_ros_rest then (s <[sel_ros_rest := 0]>, Z.lor (Z.land n 4092) s!SEL_X6X7) else (s, n) in
  let '(s, n) := if on s mpx_ros_rest then (s <[mpx_ros_rest := 0]>, Z.lor (Z.land n 4092) s!MPX_X6X7) else (s, n) in
  s <[WX := n]>.

(** *** Busses *)
(** cpu2030.c:1470-1516: orders in the CK field. *)
Definition ck_order (w : ros) (s : cpu) : cpu :=
  match CK w with
  | 18 => s <[i_wrap_cpu := s!wrap_buf]> <[u_wrap_cpu := s!wrap_buf]>
  | 24 => let s := if on s even_parity then s <[alu_chk := 1]> else s in s <[even_parity := 256]>
  | 27 => s <[MC_REG := 0]>
  | 28 => s <[wrap_buf := s!i_wrap_cpu]>
  | 29 => clr FT 8 s <[load_mode := 0]> <[even_parity := 0]> <[alu_chk := 0]>
  | 30 => s <[F_REG := Z.lxor s!F_REG (Z.land (Z.land s!F_REG (Z.lor s!L_REG 128)) 255)]>
  | 31 => orr F_REG 128 s
  | _ => s
  end.
(** cpu2030.c:1518-1546. *)
Definition b_bus (sw : switches) (w : ros) (s : cpu) : res cpu :=
  let* b :=
    if CK w =? 20 then wpar (Z.lor (Z.shiftl (H_SW sw) 4) (J_SW sw))
    else match CB w with
         | 0 => Ok s!R_REG | 1 => Ok s!L_REG | 2 => Ok s!D_REG
         | 3 => wpar (Z.lor (Z.land (Z.shiftl (CK w) 4) 240) (Z.land (CK w) 15))
         | _ => Ok s!Bbus
         end in
  let s := s <[Bbus := b]> in
  Ok (if negb (on s second_err_stop) && bad s!Bbus then orr MC_REG 64 s else s).

Definition f (b : bool) (m : Z) : Z := if b then m else 0.
(** GS, 1661-1693; GT, 1694-1722; GJ, 1723-1786. *)
Definition gs_bits (s : cpu) (c : bool) : Z :=
  let sti := bit s!(SEL_TI c) 32 in
  Z.lor (Z.lor (Z.lor (f (on s (sel_gr_full c)) 128) (f (on s (sel_chain_det c)) 64))
               (f (sti && (bit s!(GF c) 128 || negb (bit s!(GF c) 64)) &&
                    (negb (on s (sel_poll_ctrl c)) || bit s!(GI c) 8 || bit s!(GI c) 179)) 16))
        (Z.lor (Z.lor (f (bit s!(GF c) 128) 8) (f (s!ch_sel =? 0) 4)) (f (on s (sel_chain_req c)) 1)).
Definition gt_bits (s : cpu) (c : bool) : Z :=
  Z.lor (Z.lor (Z.lor (f (bit s!(SEL_TI c) 32768) 128) (f (Z.land s!(SEL_TI c) 4112 =? 16) 64))
               (Z.lor (f (on s (sel_poll_ctrl c) || on s (sel_halt_io c)) 32) (f (on s (sel_chan_busy c)) 16)))
        (Z.lor (Z.lor (f (bit s!(SEL_TI c) 64) 8) (f (bit s!(SEL_TI c) 32) 4))
               (Z.lor (f (on s (sel_intrp_lch c)) 2) (f (bit s!(SEL_TI c) 128) 1))).
Definition gj6_bits (s : cpu) (c : bool) : Z :=
  Z.lor (Z.lor (Z.lor (f (bit s!(SEL_TAGS c) 512) 128) (f (bit s!(GF c) 32) 64)) (Z.lor (f (bit s!(GG c) 1) 32) (f (bit s!(SEL_TAGS c) 16384) 16)))
        (Z.lor (Z.lor (f (bit s!(GF c) 64) 4) (f (s!(GG c) =? 12) 2)) (f (bit s!(GF c) 16) 1)).
Definition gj7_bits (s : cpu) (c : bool) : Z :=
  Z.lor (Z.lor (Z.lor (f (bit s!(SEL_TAGS c) 512) 1) (f (bit s!(SEL_TAGS c) 4096) 6)) (Z.lor (f (bit s!(SEL_TAGS c) 8192) 8) (f (bit s!(SEL_TAGS c) 16384) 16)))
        (Z.lor (Z.lor (f (on s sel_ros_req) 32) (f (bit s!(SEL_TAGS c) 2048) 64)) (f ((Z.land s!(GF c) 3 =? 2) || (Z.land s!(GF c) 5 =? 4)) 128)).

(** cpu2030.c:1548-1796.  [ti]: what model1052_in gives. *)
Definition a_plain (r : reg) (chk : bool) (s : cpu) : res cpu :=
  let s := s <[Abus := s!r]> in Ok (if chk then s <[allow_a_reg_chk := 1]> else s).
Definition a_gate (ti : Z) (sw : switches) (w : ros) (s : cpu) : res cpu :=
  let s := s <[allow_a_reg_chk := 0]> in
  let c := ch s in
  match CA w with
  | 0 => a_plain FT false s | 1 => a_plain TT false s
  | 2 | 3 => Ok (s <[Abus := 256]>)
  | 4 => a_plain S_REG false s | 5 => a_plain H_REG false s
  | 6 => a_plain FI true s | 7 => a_plain R_REG true s
  | 8 => a_plain D_REG true (s <[suppr_a_reg_chk := 0]>)
  | 9 => a_plain L_REG true s | 10 => a_plain G_REG true s | 11 => a_plain T_REG true s | 12 => a_plain V_REG true s | 13 => a_plain U_REG true s
  | 14 => a_plain J_REG true (s <[proc_stop_loop_active := Z.land s!process_stop s!cf_stop]>)
  | 15 => a_plain I_REG true s
  | 16 => Ok (s <[Abus := u16 (Z.lnot s!F_REG)]>)
  | 17 => let* a := wpar (Z.lor (Z.shiftl (F_SW sw) 4) (G_SW sw)) in Ok (s <[Abus := a]>)
  | 18 => Ok (s <[Abus := if CHK_SW sw =? 1 then 0 else s!MC_REG]>)
  | 19 => Ok (s <[Abus := 256]> <[allow_a_reg_chk := 1]>)
  | 20 => Ok (s <[Abus := s!C_REG]> <[C_REG := 0]> <[timer_update := 0]>)
  | 21 => let* a := wpar s!Q_REG in Ok (s <[Abus := a]> <[allow_a_reg_chk := 1]>)
  | 22 => a_plain JI false s
  | 23 => a_plain TI true (s <[TI := ti]>)
  | 24 | 25 | 26 | 27 => Ok (s <[Abus := 256]>)
  | 28 =>
    let s := if CS w =? 29 then s <[GR c := s!(GI c)]> else s in
    let s := s <[Abus := s!(GR c)]> in
    Ok (if bad s!(GR c) then orr (GE c) 4 s else s)
  | 29 => let* a := wpar (gs_bits s c) in Ok (s <[Abus := a]> <[allow_a_reg_chk := 1]>)
  | 30 => let* a := wpar (gt_bits s c) in Ok (s <[Abus := a]>)
  | 31 =>
    let s := s <[allow_a_reg_chk := 1]> in
    match CK w with
    | 1 => Ok (s <[Abus := s!(GC c)]>) | 2 => Ok (s <[Abus := s!(GD c)]>) | 3 => Ok (s <[Abus := s!(GK c)]>)
    | 4 => Ok (s <[Abus := Z.lor s!(GE c) (f (bit s!(GF c) 8) 128)]> <[allow_a_reg_chk := 0]>)
    | 8 => Ok (s <[Abus := s!(GO c)]>)
    | 6 => let* a := wpar (gj6_bits s c) in Ok (s <[Abus := a]>)
    | 7 => let* a := wpar (gj7_bits s c) in Ok (s <[Abus := a]>)
    | _ => Ok (s <[Abus := 256]>)
    end
  | _ => Ok s
  end.
Definition a_bus (ti : Z) (sw : switches) (w : ros) (s : cpu) : res cpu :=
  let* s := a_gate ti sw w s in
  let s := if (CL w =? 2) || on s any_priority_lch || on s suppr_a_reg_chk then s <[allow_a_reg_chk := 0]> else s in
  Ok (if on s allow_a_reg_chk && bad s!Abus then orr MC_REG 128 s else s).

(** *** The arithmetic and logic unit, cpu2030.c:1798-1900 *)
Definition a_in (cf a : Z) : Z :=
  match cf with
  | 1 => Z.land a 15 | 2 => Z.land a 240 | 3 => Z.land a 255
  | 5 => Z.land (Z.shiftr a 4) 15 | 6 => Z.land (Z.shiftl a 4) 240
  | 7 => Z.lor (Z.land (Z.shiftr a 4) 15) (Z.land (Z.shiftl a 4) 240)
  | _ => 0
  end.
Definition b_mask (cg b : Z) : Z := match cg with 0 => 0 | 1 => Z.land b 15 | 2 => Z.land b 240 | _ => Z.land b 255 end.
(** Whether the B input is complemented, and the input with the excess six of a decimal addition. *)
Definition is_tc (cv st : Z) : bool := if bit cv 2 then bit st 128 else cv =? 1.
Definition b_in (cv st b : Z) : Z :=
  if is_tc cv st then Z.lxor b 255
  else if cv =? 3 then Z.lor (Z.land (b + 96) 240) (Z.land (b + 6) 15) else b.
Definition c_in (cc st : Z) : Z := match cc with 1 | 5 => 1 | 6 => b2z (bit st 16) | _ => 0 end.
Definition adds (cc : Z) : bool := match cc with 0 | 1 | 4 | 5 | 6 => true | _ => false end.
(** The result before decimal correction, and the carries out of each bit. *)
Definition alu_sum (cc a b c : Z) (old : Z) : Z * Z :=
  if adds cc then
    let z := a + b + c in (Z.land z 255, Z.lor (Z.land a b) (Z.land (Z.lxor a b) (Z.lnot z)))
  else match cc with 2 => (Z.land a b, 0) | 3 => (Z.lor a b, 0) | 7 => (Z.lxor a b, 0) | _ => (old, 0) end.
Definition dec_fix (z k : Z) : Z :=
  let z := if bit k 8 then z else u16 (z - 6) in
  if bit k 128 then z else u16 (z - 96).
(** Alu_out with parity, and the carries. *)
Definition alu (cv cc a b st even old : Z) : res (Z * Z) :=
  let '(z, k) := alu_sum cc a (b_in cv st b) (c_in cc st) old in
  let z := if cv =? 3 then dec_fix z k else z in
  let* p := tab odd_parity z in
  Ok (Z.lor z (Z.lxor p even), k).
Definition alu_step (sw : switches) (w : ros) (s : cpu) : res cpu :=
  let s := if (CF w =? 4) && negb (PROC_SW sw =? 0) then s <[cf_stop := 1]> else s in
  let s := s <[tc := b2z (is_tc (CV w) s!S_REG)]> in
  let* (z, k) := alu (CV w) (CC w) (a_in (CF w) s!Abus) (b_mask (CG w) s!Bbus) s!S_REG s!even_parity s!Alu_out in
  let s :=
    if CV w =? 3 then
      let s := if CC w =? 7 then s <[ASCII := b2z (bit s!R_REG 8)]> <[suppr_half_trap_lch := b2z (negb (bit s!R_REG 4))]> else s in
      s <[wait := b2z (CC w =? 3)]>
    else s in
  Ok (s <[carries := k]> <[Alu_out := z]>).

(** *** The destination, cpu2030.c:1904-2000 *)
Definition wrapped (w : ros) (s : cpu) : bool :=
  (CG w =? 0) && negb (bit (Z.lxor (if on s tc then 0 else 128) s!carries) 128).
Definition dest (w : ros) (s : cpu) : cpu :=
  let z := s!Alu_out in
  match CD w with
  | 1 => s <[TE := z]> | 2 => s <[JE := Z.land s!D_REG 255]> | 3 => s <[Q_REG := Z.land z 255]> | 4 => s <[TA := Z.land z 255]>
  | 5 =>
    let s :=
      if (CM w <? 3) && (CU w =? 3) then
        if bit s!H_REG 4 then
          let s := s <[sel_ros_rest := 1]> <[sel_ros_req := Z.land s!sel_ros_req (Z.lnot (Z.shiftl 1 s!ch_sel))]> in
          s <[ch_sel := s!ch_sav]> <[WX := s!GWX]>
        else s <[mpx_ros_rest := 1]> <[WX := s!FWX]>
      else s in
    s <[H_REG := z]> <[priority_lch := 0]>
  | 6 => s <[S_REG := Z.land z 255]>
  | 7 =>
    if on s allow_write && on s protect_loc || on s mem_prot then s <[stg_prot_req := 1]>
    else let s := s <[R_REG := z]> in if bad z then orr MC_REG 2 s else s
  | 8 => s <[D_REG := z]> | 9 => s <[L_REG := z]> | 10 => s <[G_REG := z]> | 11 => s <[T_REG := z]> | 12 => s <[V_REG := z]>
  | 13 =>
    let s := s <[U_REG := z]> in
    let v := b2z (wrapped w s) in
    let h := Z.land s!H_REG 6 in
    let s := if h =? 4 then s <[u_wrap_mpx := v]> else s in
    if h =? 0 then s <[u_wrap_cpu := v]> else s
  | 14 => s <[J_REG := z]>
  | 15 =>
    let s := s <[I_REG := z]> in
    if Z.land s!H_REG 6 =? 0 then s <[i_wrap_cpu := b2z (wrapped w s)]> else s
  | _ => s
  end.

(** cpu2030.c:2002-2027: the carry, and the machine checks. *)
Definition save_carry (w : ros) (s : cpu) : cpu :=
  if bit (CC w) 4 && negb (CC w =? 7) then (if bit s!carries 128 then orr S_REG 16 s else clr S_REG 16 s) else s.
Definition checks (sw : switches) (w : ros) (s : cpu) : cpu :=
  let s := save_carry w s in
  let s := if on s even_parity || on s alu_chk then orr MC_REG 1 s else s in
  let s := if (s!WX =? 2976) || (s!WX =? 2912) then orr MC_REG 28 s else s in
  let s := s <[any_mach_chk := Z.lor (b2z (on s MC_REG)) s!sel_chnl_chk]> in
  if (CHK_SW sw =? 2) && on s suppr_half_trap_lch && on s any_mach_chk then s <[first_mach_chk_req := 1]> else s.

(** *** The CS field, cpu2030.c:2029-2364 *)
(** K to FB, 2084-2135, and K to FA, 2136-2171. *)
Definition k_fb (w : ros) (s : cpu) : cpu :=
  let k m := bit (CK w) m in
  let s := if k 2 && k 1 then s <[MASK := Z.land 225 s!R_REG]> else s in
  let s := if k 8 && k 1 then s <[XX_REG := Z.land 224 s!S_REG]> else s in
  let s := if k 8 && k 4 then (let s := clr FT 1 s in if PK w =? 0 then s else orr FT 1 s) else s in
  let s := if k 4 && k 2 then (let s := clr FT 32 s in if PK w =? 0 then s else orr FT 32 s) else s in
  let s := if k 8 && k 2 then s <[mpx_supr_out_lch := PK w]> else s in
  let s := if k 4 && k 1 then (if PK w =? 0 then orr MPX_TAGS 512 s else s <[MPX_TAGS := 0]> <[MPX_TI := 0]> <[mpx_start_sel := 0]>) else s in
  if (Z.land s!MPX_TAGS 49152 =? 49152) && bit s!MPX_TI 32 then clr MPX_TAGS 33792 (s <[mpx_start_sel := 0]>) else s.
Definition k_fa (w : ros) (s : cpu) : cpu :=
  let k m := bit (CK w) m in
  let s := if k 8 then s <[O_REG := s!R_REG]> else s in
  let s := s <[mpx_cmd_start := b2z (negb (PK w =? 0))]> in
  let s :=
    if k 4 then (let s := orr MPX_TAGS 16384 s in if k 8 then orr MPX_TAGS 33792 s else s)
    else (let s := clr MPX_TAGS 16384 s in if k 8 then s else clr MPX_TAGS 33792 s) in
  let s := if k 2 then orr MPX_TAGS 8192 s else s in
  if k 1 then orr MPX_TAGS 4096 s else s.
(** K to GH, 2197-2234; K to GB, 2238-2319; K to GA, 2337-2363. *)
Definition k_gh (w : ros) (s : cpu) : cpu :=
  let c := ch s in
  match Z.land (CK w) 15 with
  | 0 =>
    let one c s := s <[sel_chan_busy c := 0]> <[sel_intrp_lch c := 0]> <[sel_gr_full c := 0]> <[sel_cnt_rdy_not_zero c := 0]> <[sel_status_stop_cond c := 0]> in
    one true (one false s)
  | 1 => s <[sel_diag_mode c := 1]>
  | 2 => s <[sel_diag_tag_ctrl c := s!(sel_diag_mode c)]>
  | 7 => s <[sel_chain_det c := 1]>
  | 12 => orr (SEL_TAGS c) 33792 s
  | 13 => s <[sel_chain_det c := 0]> <[sel_poll_ctrl c := 1]>
  | _ => s
  end.
(** sel_ros_req &= ~(1 << ch_sel). *)
Definition ros_done (s : cpu) : cpu := s <[sel_ros_req := Z.land s!sel_ros_req (Z.lnot (Z.shiftl 1 s!ch_sel))]>.
Definition k_gb (w : ros) (s : cpu) : cpu :=
  let c := ch s in
  match Z.land (CK w) 15 with
  | 0 => orr (GE c) 32 s
  | 1 => s <[ch_sel := PK w]>
  | 2 => clr (SEL_TAGS c) 512 s
  | 3 => clr (GF c) 8 s
  | 4 => s <[sel_intrp_lch c := 1]>
  | 5 => orr (GE c) 4 s
  | 6 => s <[GR c := 256]>
  | 8 => ros_done (s <[sel_cnt_rdy_not_zero c := 1]> <[sel_cnt_rdy_zero c := 0]> <[sel_status_stop_cond c := 0]> <[sel_chain_det c := 0]>
                    <[sel_chain_req c := 0]> <[sel_poll_ctrl c := 0]>)
  | 9 =>
    let s := if PK w =? 0 then s else ros_done (s <[sel_poll_ctrl c := 0]>) in
    clr (SEL_TAGS c) 2048 (s <[sel_chain_req c := 0]> <[sel_cnt_rdy_not_zero c := 0]> <[sel_cnt_rdy_zero c := 0]> <[sel_chain_det c := 0]>
      <[sel_chan_busy c := 0]> <[sel_intrp_lch c := 0]> <[sel_halt_io c := 0]> <[sel_gr_full c := 0]> <[sel_status_stop_cond c := 0]> <[GE c := 0]> <[GF c := 0]>)
  | 10 => if PK w =? 0 then clr (SEL_TAGS c) 2048 s else orr (SEL_TAGS c) 2048 s
  | 11 => s <[sel_poll_ctrl c := PK w]>
  | 12 =>
    let s := clr (SEL_TAGS c) 33792 s in
    if negb (on s (sel_poll_ctrl c)) && negb (on s (sel_halt_io c)) then clr (SEL_TAGS c) 16384 s else s
  | 13 => s <[sel_chan_busy c := 1]>
  | 14 => s <[sel_halt_io c := 1]> <[sel_chain_req c := 0]>
  | 15 => orr (GE c) 2 s
  | _ => s
  end.
Definition k_ga (w : ros) (s : cpu) : cpu :=
  let c := ch s in
  let k m := bit (CK w) m in
  let s := if k 8 then s <[sel_bus_out_ctrl c := 1]> else s in
  let s := if k 4 then (let s := orr (SEL_TAGS c) 16384 s <[GO c := s!(GR c)]> in if k 8 then s <[sel_status_stop_cond c := 0]> else s)
           else clr (SEL_TAGS c) 16384 s in
  let s := if k 2 then orr (SEL_TAGS c) 8192 s <[GO c := s!(GR c)]> else s in
  if k 1 then orr (SEL_TAGS c) 4096 s <[GO c := s!(GR c)]> else s.
Definition cs_order (w : ros) (s : cpu) : cpu :=
  let z := s!Alu_out in
  let c := ch s in
  let lz s := if bit z 15 then s else orr S_REG 4 s in
  let hz s := if bit z 240 then s else orr S_REG 8 s in
  match CS w with
  | 1 => lz (clr S_REG 4 s) | 2 => hz (clr S_REG 8 s) | 3 => lz (hz (clr S_REG 12 s)) | 4 => clr S_REG 12 s
  | 5 => let s := clr S_REG 64 s in if negb (bit s!MPX_TI 128) && on s t_request then orr S_REG 64 s else s
  | 6 => clr S_REG 128 s | 7 => orr S_REG 128 s | 8 => clr S_REG 32 s
  | 9 => if bit z 255 then orr S_REG 32 s else s
  | 10 => clr S_REG 2 s | 11 => orr S_REG 2 s | 12 => clr S_REG 1 s | 13 => orr S_REG 1 s
  | 14 => k_fb w s | 15 => k_fa w s
  | 22 => s <[GC c := s!(GU c)]> <[GD c := s!(GV c)]> <[sel_chain_req c := 0]>
  | 23 => s <[GK c := s!(GR c)]>
  | 24 => s <[GF c := Z.lor s!(GR c) (Z.land s!(GF c) 8)]> <[sel_cnt_rdy_zero c := 0]>
  | 25 => s <[GG c := s!(GR c)]> | 26 => s <[GU c := s!(GR c)]> | 27 => s <[GV c := s!(GR c)]>
  | 28 => k_gh w s | 29 => s <[GR c := s!(GI c)]> | 30 => k_gb w s | 31 => k_ga w s
  | _ => s
  end.

(** cpu2030.c:2366-2408: stops, parity of R, and the status of the ALU for the next cycle. *)
Definition stop (b : bool) (s : cpu) : cpu :=
  if b then (let s := s <[hard_stop := 1]> in if on s any_priority_lch then s <[priority_lch := 1]> else s) else s.
Definition hard_stops (sw : switches) (w : ros) (s : cpu) : cpu :=
  let s := stop (on s second_err_stop && on s first_mach_chk_req) s in
  let s := stop (on s chk_or_diag_stop_sw && (on s any_mach_chk || on s alu_chk)) s in
  let s := stop ((CHK_SW sw =? 0) && (CS w =? 9) && on s suppr_half_trap_lch && bit s!Alu_out 255) s in
  let s := stop (on s match_ && ((MATCH_SW sw =? 2) || (MATCH_SW sw =? 7) || (MATCH_SW sw =? 8))) s in
  let s := stop (RATE_SW sw =? 0) s in
  let s := stop ((RATE_SW sw =? 2) && on s any_priority_pulse && (PROC_SW sw =? 2)) s in
  if ((CM w =? 0) || (CM w =? 2)) && bad s!R_REG then orr MC_REG 2 s else s.
Definition stops (sw : switches) (w : ros) (s : cpu) : cpu :=
  let s := hard_stops sw w s in
  s <[STAT_REG := Z.lor (Z.lor (f (bit s!carries 128) 4) (f (bit s!carries 64) 2)) (f (negb (bit s!Alu_out 255)) 8)]>.

(** One microinstruction, cpu2030.c:1039-2408: [w] is ros_2030[WX]. *)
Definition micro (ti : Z) (sw : switches) (w : ros) (s : cpu) : res cpu :=
  let* s := mem_read w s in
  let* s := mem_order w s in
  let n := next_wx w s in
  let s := s <[end_of_e_cycle := b2z (CL w =? 15)]> in
  if on s dead_cycle then Ok (dead s n)
  else
    let s := ck_order w (go s n) in
    let* s := b_bus sw w s in
    let* s := a_bus ti sw w s in
    let* s := alu_step sw w s in
    Ok (stops sw w (cs_order w (checks sw w (dest w s)))).
(** Microinstructions one after the other, each with what the console and the switches give. *)
Fixpoint micros (ws : list (Z * switches * ros)) (s : cpu) : res cpu :=
  match ws with [] => Ok s | (ti, sw, w) :: ws => let* s := micro ti sw w s in micros ws s end.
(** ros_2030[WX]. *)
Definition fetch (rom : list ros) (s : cpu) : res ros :=
  if s!WX <? 0 then UB else match nth_error rom (Z.to_nat s!WX) with Some w => Ok w | None => UB end.

(** *** Traps, cpu2030.c:724-758 *)
Definition trap (s : cpu) : cpu :=
  let p m := bit s!priority_stack_reg m in
  let h m := bit s!H_REG m in
  let take m bus s := clr priority_stack_reg m (s <[priority_bus := bus]>) in
  let s := s <[priority_bus := 0]> <[mach_chk_pulse := 0]> in
  let s :=
    if negb (on s priority_lch) && (s!read_call =? 0) && (s!allow_write =? 0) then
      if negb (on s suppr_half_trap_lch) && negb (on s gate_sw_to_wx) && p 128 then take 128 4 (s <[mach_chk_pulse := 1]> <[suppr_a_reg_chk := 1]>)
      else if p 64 && negb (h 128) then take 64 2 s
      else if p 32 && negb (h 8) then take 32 1 (s <[force_ij_req := 0]>)
      else if p 16 && negb (h 32) then take 16 32 s
      else if p 8 && negb (h 16) then take 8 64 s
      else if p 4 then take 4 128 s
      else if p 2 && negb (h 4) then take 2 8 (s <[sel_chain_pulse := 1]>)
      else if p 1 && negb (h 6) then take 1 16 (s <[mpx_share_pulse := 1]>)
      else s
    else s in
  s <[any_priority_pulse := b2z (on s priority_bus)]>.

(** *** Selector channels, cpu2030.c:760-868 *)
(** (GC, GD) - 1 or + 1 on the incrementer: GHY is not cut to a byte. *)
Definition count_down (hi lo : Z) : Z * Z :=
  let z := Z.land (lo - 1) 255 in
  let y := Z.land hi 255 in (if z =? 255 then u16 (y - 1) else y, z).
Definition count_up (hi lo : Z) : Z * Z :=
  let z := Z.land (lo + 1) 255 in
  let y := Z.land hi 255 in (if z =? 0 then y + 1 else y, z).
Definition is_in (gg : Z) : bool := (Z.land gg 3 =? 2) || (Z.land gg 5 =? 4).
(** 768-791: the address goes to MN, the count less one to the incrementer; checks. *)
Definition sel_addr (c : bool) (s : cpu) : cpu :=
  let '(y, z) := count_down s!(GC c) s!(GD c) in
  s <[M_REG := s!(GU c)]> <[N_REG := s!(GV c)]> <[MN_REG := both s!(GU c) s!(GV c)]> <[GHZ := z]> <[GHY := y]>.
Definition sel_flags (c : bool) (s : cpu) : cpu :=
  let s := if (s!GHZ =? 0) && (s!GHY =? 0) then s <[sel_cnt_rdy_not_zero c := 0]> else s in
  let s := if bit (Z.lxor 65535 (mem_max s)) s!MN_REG then orr (GE c) 32 s else s in
  if bad s!M_REG || bad s!N_REG then orr MC_REG 32 s else s.
(** 793-797 and 827-831: GUV to GCD, the incrementer with parity to GUV. *)
Definition sel_swap (c : bool) (s : cpu) : res cpu :=
  let s := s <[GC c := s!(GU c)]> <[GD c := s!(GV c)]> in
  let* v := wpar s!GHZ in
  let* u := wpar s!GHY in
  Ok (s <[GV c := v]> <[GU c := u]>).
(** 798-807. *)
Definition sel_fetch (c : bool) (s : cpu) : res cpu :=
  let* s :=
    if negb (on s (sel_cnt_rdy_zero c)) && (Z.land s!(GG c) 1 =? 1) && negb (on s (sel_gr_full c)) then
      let* x := tab (mm s) s!MN_REG in Ok (s <[GR c := u16 x]>)
    else Ok s in
  let* k := tab (mp s) (Z.lor 224 (Z.shiftr s!M_REG 3)) in
  Ok (s <[Q_REG := Z.lor (Z.land s!Q_REG 240) (Z.land k 15)]>).
Definition sel_read (c : bool) (s : cpu) : res cpu :=
  let* s := sel_swap c (sel_flags c (sel_addr c s)) in
  let* s := sel_fetch c s in
  Ok (s <[sel_write_cycle c := 1]> <[sel_read_cycle c := 0]>).
(** 810-826: the direction is that of the channel the microprogram works for, not of channel c. *)
Definition sel_incr (c : bool) (s : cpu) : cpu :=
  let back := s!(GG (ch s)) =? 268 in
  let '(y, z) := if back then count_down s!(GC c) s!(GD c) else count_up s!(GC c) s!(GD c) in
  let s := s <[GHZ := z]> <[GHY := y]> in
  if negb back && bit y 256 then orr (GE c) 32 s else s.
(** 834-852: an input byte goes to storage unless its key protects it; then the old byte is written back. *)
Definition sel_store (c : bool) (s : cpu) : res cpu :=
  if on s (sel_gr_full c) && is_in s!(GG c) then
    let* s :=
      if bit s!(GK c) 240 && bit (Z.lxor (Z.shiftr s!(GK c) 4) s!Q_REG) 15 then
        let* x := tab (mm s) s!MN_REG in Ok (orr (GE c) 16 s <[GR c := u16 x]>)
      else Ok s in
    let* s := if bit s!(GF c) 16 then Ok s else let* m := put (mm s) s!MN_REG s!(GR c) in Ok (set_mm m s) in
    let s := s <[sel_gr_full c := 0]> in
    Ok (if (Z.land s!(SEL_TI c) 4112 =? 16) && negb (on s (sel_cnt_rdy_zero c)) then orr (SEL_TAGS c) 4096 s else s)
  else Ok s.
(** 854-868. *)
Definition sel_end (c : bool) (s : cpu) : cpu :=
  let s := if negb (on s (sel_cnt_rdy_zero c)) && (Z.land s!(GG c) 1 =? 1) && negb (on s (sel_gr_full c)) then s <[sel_gr_full c := 1]> else s in
  let s := if negb (on s (sel_cnt_rdy_not_zero c)) && negb (on s (sel_gr_full c)) then s <[sel_cnt_rdy_zero c := 1]> else s in
  let s := if bad s!(GR c) then orr (GE c) 8 s else s in
  s <[sel_share_req := Z.land s!sel_share_req (Z.lnot (if c then 2 else 1))]>.
Definition sel_write (c : bool) (s : cpu) : res cpu :=
  let* s := sel_swap c (sel_incr c s) in
  let* s := sel_store c (s <[sel_write_cycle c := 0]>) in
  Ok (sel_end c s).
Definition sel_step (s : cpu) : res cpu :=
  let c := negb (bit s!sel_share_req 1) in
  if on s (sel_read_cycle c) then sel_read c s else if on s (sel_write_cycle c) then sel_write c s else Ok s.

(** 761, 870-881 and 1039-2408: from the choice of a trap to the end of the microinstruction. *)
Definition sel_turn (s : cpu) : bool := on s sel_share_req && negb (on s allow_write) && negb (on s read_call).
Definition enter (s : cpu) : cpu :=
  if on s any_priority_pulse && negb (on s sel_ros_rest) && negb (on s mpx_ros_rest)
  then s <[priority_lch := 1]> <[clock_start_lch := 1]> <[dead_cycle := 1]> else s.
Definition cycle (ti : Z) (sw : switches) (rom : list ros) (s : cpu) : res cpu :=
  let s := trap s in
  if sel_turn s then sel_step s
  else
    let s := enter s in
    if on s clock_start_lch then let* w := fetch rom s in micro ti sw w s else Ok s.

Fixpoint cycles (io : list (Z * switches)) (rom : list ros) (s : cpu) : res cpu :=
  match io with [] => Ok s | (ti, sw) :: io => let* s := cycle ti sw rom s in cycles io rom s end.

(** *** Display and store, cpu2030.c:442-660: storage and the plain registers; the other displays only show latches *)
Definition set_addr (mask : bool) (sw : switches) (s : cpu) : res cpu :=
  (* M is set twice, N never; in the store key the index is not masked (566-569, 631-634) *)
  let* m := wpar (Z.lor (Z.shiftl (A_SW sw) 4) (B_SW sw)) in
  let s := s <[M_REG := m]> <[M_REG := Z.lor (Z.shiftl (C_SW sw) 4) (D_SW sw)]> in
  let* p := if mask then Ok (op s!N_REG) else tab odd_parity s!N_REG in
  let s := s <[N_REG := Z.lor s!N_REG p]> in
  Ok (s <[MN_REG := both s!M_REG s!N_REG]>).
Definition ls_index (s : cpu) : Z := Z.lor (Z.land (Z.shiftl s!M_REG 5) 1792) (Z.land s!N_REG 255).
Definition display_reg (e : Z) : option reg :=
  match e with
  | 16 => Some Q_REG | 17 => Some C_REG | 18 => Some F_REG | 19 => Some TT | 20 => Some TI | 21 => Some JI
  | 48 => Some I_REG | 49 => Some J_REG | 50 => Some U_REG | 51 => Some V_REG | 52 => Some L_REG | 53 => Some T_REG | 54 => Some D_REG
  | 55 => Some R_REG | 56 => Some S_REG | 57 => Some G_REG | 58 => Some H_REG | 59 => Some FI | 60 => Some FT
  | _ => None
  end.
Definition display_key (sw : switches) (s : cpu) : res cpu :=
  let s := s <[Abus := 0]> in
  let e := E_SW sw in
  if (e =? 32) || (e =? 33) then
    if on s allow_write then Ok s
    else
      let* s := set_addr true sw s in
      if e =? 32 then let* x := tab (mm s) s!MN_REG in Ok (s <[R_REG := u16 (Z.lxor x 256)]> <[store := MAIN]>)
      else let* x := tab (ls s) (ls_index s) in Ok (s <[R_REG := Z.lxor x 256]> <[store := LOCAL]>)
  else if e =? 24 then Ok (s <[M_REG := s!(GU false)]> <[N_REG := s!(GV false)]> <[MN_REG := both s!(GU false) s!(GV false)]>)
  else if e =? 27 then Ok (s <[M_REG := s!(GU true)]> <[N_REG := s!(GV true)]> <[MN_REG := both s!(GU true) s!(GV true)]>)
  else
    let s := match display_reg e with Some r => s <[Abus := s!r]> | None => s end in
    if negb (on s allow_write) && ((e =? 48) || (e =? 49)) then Ok (s <[M_REG := s!I_REG]> <[N_REG := s!J_REG]>)
    else if negb (on s allow_write) && ((e =? 50) || (e =? 51)) then Ok (s <[M_REG := s!U_REG]> <[N_REG := s!V_REG]>)
    else Ok s.
Definition store_reg (e : Z) : option reg :=
  match e with
  | 16 => Some Q_REG | 48 => Some I_REG | 49 => Some J_REG | 50 => Some U_REG | 51 => Some V_REG | 52 => Some L_REG | 53 => Some T_REG
  | 54 => Some D_REG | 55 => Some R_REG | 57 => Some G_REG | 58 => Some H_REG | _ => None
  end.
Definition store_key (sw : switches) (s : cpu) : res cpu :=
  let* b := wpar (Z.lor (Z.shiftl (H_SW sw) 4) (J_SW sw)) in
  let s := s <[Bbus := b]> <[Alu_out := b]> <[Abus := b]> in
  let e := E_SW sw in
  if (e =? 32) || (e =? 33) then
    if on s allow_write then Ok s
    else
      let s := s <[R_REG := b]> in
      let* s := set_addr false sw s in
      let* s :=
        if e =? 32 then let* m := put (mm s) s!MN_REG (Z.lxor s!R_REG 256) in Ok (set_mm m s <[store := MAIN]>)
        else let* m := put (ls s) (ls_index s) (Z.lxor s!R_REG 256) in Ok (set_ls m s <[store := LOCAL]>) in
      Ok (s <[Abus := s!R_REG]>)
  else if e =? 56 then Ok (s <[S_REG := u8 b]>)
  else Ok (match store_reg e with Some r => s <[r := b]> | None => s end).
