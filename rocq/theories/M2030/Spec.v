(** The 2030 processor as its manuals describe it: independent of the model's helpers. *)
From Verif Require Import M2030.Model.

(** Nine bits with odd parity. *)
Definition odd9 (x : Z) : Prop := 0 <= x < 512 /\ odd_bits 9 x = true.
(** Bit k of a byte counted from the left, as IBM does. *)
Definition ibit (x k : Z) : bool := Z.testbit x (7 - k).
Definition hi (x : Z) : Z := x / 16 mod 16.
Definition lo (x : Z) : Z := x mod 16.
(** The gates in front of the adder: either digit, both, none, and for A straight or crossed. *)
Definition gate_a (cf x : Z) : Z :=
  match cf with 1 => lo x | 2 => 16 * hi x | 3 => 16 * hi x + lo x | 5 => hi x | 6 => 16 * lo x | 7 => 16 * lo x + hi x | _ => 0 end.
Definition gate_b (cg x : Z) : Z := match cg with 1 => lo x | 2 => 16 * hi x | 3 => 16 * hi x + lo x | _ => 0 end.
(** CV: 0 true, 1 complement, 2 and 3 as S0 says, 3 is decimal. *)
Definition complement (cv s : Z) : bool := (cv =? 1) || ((cv =? 2) || (cv =? 3)) && ibit s 0.
(** CC: the sums are 0, 1, 4, 5, 6; 4 to 6 save the carry in S3. *)
Definition is_sum (cc : Z) : Prop := cc = 0 \/ cc = 1 \/ cc = 4 \/ cc = 5 \/ cc = 6.
Definition saves_carry (cc : Z) : Prop := cc = 4 \/ cc = 5 \/ cc = 6.
Definition carry_into (cc s : Z) : Z := if (cc =? 1) || (cc =? 5) then 1 else if cc =? 6 then (if ibit s 3 then 1 else 0) else 0.

(** A packed decimal byte. *)
Definition bcd (n : Z) : Z := 16 * (n / 10) + n mod 10.

(** The widths of the fields of a control word, as the hardware has them. *)
Definition word_ok (w : ros) : Prop :=
  0 <= CN w < 256 /\ 0 <= CH w < 16 /\ 0 <= CL w < 16 /\ 0 <= CM w < 8 /\ 0 <= CU w < 4 /\ 0 <= CA w < 32 /\ 0 <= CB w < 4 /\ 0 <= CK w < 32 /\
  0 <= CD w < 16 /\ 0 <= CF w < 8 /\ 0 <= CG w < 4 /\ 0 <= CV w < 4 /\ 0 <= CC w < 8 /\ 0 <= CS w < 32 /\ 0 <= PK w < 2.
Definition switches_ok (sw : switches) : Prop :=
  0 <= A_SW sw < 16 /\ 0 <= B_SW sw < 16 /\ 0 <= C_SW sw < 16 /\ 0 <= D_SW sw < 16 /\ 0 <= F_SW sw < 16 /\ 0 <= G_SW sw < 16 /\
  0 <= H_SW sw < 16 /\ 0 <= J_SW sw < 16.

(** A pair of registers as a number of 16 bits. *)
Definition pair16 (h l : Z) : Z := 256 * (h mod 256) + l mod 256.

(** The traps, highest first: the bit in the priority stack register, the bits of H that hold it off, the address in the control store. *)
Definition traps : list (Z * list Z * Z) :=
  [ (0, [], 4);          (* machine check *)
    (1, [0], 2);         (* initial program load *)
    (2, [4], 1);         (* set instruction counter *)
    (3, [2], 32);        (* storage wrap *)
    (4, [3], 64);        (* protection *)
    (5, [], 128);        (* stop *)
    (6, [5], 8);         (* selector channel *)
    (7, [5; 6], 16) ].   (* multiplexer channel *)
(** The first trap that waits and is not held off; a machine check is also held off by [hold]. *)
Definition waiting (hold : bool) (stack h : Z) (t : Z * list Z * Z) : bool :=
  let '(k, masks, _) := t in ibit stack k && forallb (fun m => negb (ibit h m)) masks && negb ((k =? 0) && hold).
Definition chosen (hold : bool) (stack h : Z) : option (Z * list Z * Z) := find (waiting hold stack h) traps.

(** The storage of models A to F: 2 to 64 thousand bytes; local and multiplexer storage; the keys. *)
Definition storage_ok (s : cpu) : Prop :=
  (exists k, 11 <= k <= 16 /\ mem_max s = 2 ^ k - 1 /\ Z.of_nat (length (mm s)) = 2 ^ k) /\ Z.of_nat (length (ls s)) = 4096 /\ Z.of_nat (length (mp s)) = 256.
(** A read order for byte MN of main storage is waiting, the address has good parity and is installed. *)
Definition reading (s : cpu) : Prop :=
  s!dead_cycle = 0 /\ s!read_call <> 0 /\ s!store = MAIN /\ odd9 s!M_REG /\ odd9 s!N_REG /\ 0 <= s!MN_REG <= mem_max s /\ 0 <= s!SA_REG < 256.
(** The key of the byte, and whether it stops a store: Q holds the key of the program on the left. *)
Definition key_of (s : cpu) : Z := nth (Z.to_nat s!SA_REG) (mp s) 0.
Definition protected (s : cpu) : Prop :=
  s!inh_stg_prot = 0 /\ ibit s!H_REG 5 = false /\ hi s!Q_REG <> 0 /\ lo (key_of s) <> hi s!Q_REG.
(** Storage and keys. *)
Definition same_storage (s s' : cpu) : Prop := mm s' = mm s /\ ls s' = ls s /\ mp s' = mp s.

(** A machine with 64K bytes in a state from which no access leaves an array: the address registers of the arrays are in range. *)
Definition sizes (s : cpu) : Prop :=
  mem_max s = 65535 /\ Z.of_nat (length (mm s)) = 65536 /\ Z.of_nat (length (ls s)) = 4096 /\ Z.of_nat (length (mp s)) = 256.
Definition in_range (s : cpu) : Prop :=
  sizes s /\ 0 <= s!Q_REG < 256 /\ 0 <= s!XX_REG < 256 /\ 0 <= s!SA_REG < 256 /\ 0 <= s!MN_REG < 65536.
Definition safe (s : cpu) : Prop :=
  in_range s /\ (s!store <> MAIN -> s!read_call <> 0 \/ s!allow_write <> 0 -> s!MN_REG < 4096).
(** The addresses of the control store. *)
Definition in_rom (x : Z) : Prop := 0 <= x < 4096.
Definition rom_regs (s : cpu) : Prop := in_rom s!WX /\ in_rom s!GWX /\ in_rom s!FWX /\ 0 <= s!SEL_X6X7 < 4 /\ 0 <= s!MPX_X6X7 < 4.
(** A machine that runs, its channels silent; a full control store without decimal words and without branches to UV. *)
Definition running (s : cpu) : Prop := safe s /\ rom_regs s /\ s!sel_share_req = 0 /\ s!dead_cycle = 0.
Definition rom_ok (rom : list ros) : Prop := length rom = Z.to_nat 4096 /\ Forall (fun w => word_ok w /\ CV w <> 3 /\ CK w <> 17) rom.

(** The registers that take their parity from the adder. *)
Definition kept : list reg := [D_REG; L_REG; G_REG; T_REG; V_REG; U_REG; J_REG; I_REG; H_REG].
(** A main storage that differs at most at [a]. *)
Definition only_at (a : Z) (l l' : list Z) : Prop := length l' = length l /\ forall i, i <> a -> 0 <= i -> nth (Z.to_nat i) l' 0 = nth (Z.to_nat i) l 0.
(** What the fields CA and CB gate to the busses and CD takes from the adder: the registers without side effects. *)
Definition a_regs : list (Z * reg) := [(0, FT); (1, TT); (5, H_REG); (6, FI); (8, D_REG); (9, L_REG); (10, G_REG); (11, T_REG); (12, V_REG); (13, U_REG); (14, J_REG); (15, I_REG); (22, JI)].
Definition b_regs : list (Z * reg) := [(1, L_REG); (2, D_REG)].
Definition d_regs : list (Z * reg) := [(5, H_REG); (8, D_REG); (9, L_REG); (10, G_REG); (11, T_REG); (12, V_REG); (13, U_REG); (14, J_REG); (15, I_REG)].

(** States, words and switches for the examples: 64K bytes of zero with good parity, all registers zero with good parity. *)
Definition at_rest : cpu :=
  mkC (fun r => match r with
                | Abus | Bbus | D_REG | F_REG | G_REG | H_REG | L_REG | R_REG | T_REG | M_REG | N_REG | I_REG | J_REG | U_REG | V_REG | GC _ | GD _ | GU _ | GV _ | GR _ => 256
                | clock_start_lch => 1 | store => MAIN | _ => 0 end)
      (repeat 256 (Z.to_nat 65536)) (repeat 256 (Z.to_nat 4096)) (repeat 0 (Z.to_nat 256)) 65535.
Definition none : ros := mkW 0 0 0 1 0 2 1 0 0 0 0 0 0 0 0.
Definition off : switches := mkS 0 0 0 0 0 0 0 0 0 0 0 1 0.
