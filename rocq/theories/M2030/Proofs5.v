(** The 2030: traps and the next address. *)
From Verif Require Import M2030.Model M2030.Spec M2030.Proofs M2030.Proofs2.

Lemma bit_i x k m : m = 2 ^ (7 - k) -> 0 <= k <= 7 -> bit x m = ibit x k.
Proof. intros -> H. unfold ibit. apply bit_test. lia. Qed.
Lemma bit6 x : bit x 6 = ibit x 5 || ibit x 6.
Proof.
  unfold bit, ibit. change (7 - 5) with 2. change (7 - 6) with 1.
  destruct (Z.testbit x 2) eqn:A; [|destruct (Z.testbit x 1) eqn:B].
  - replace (Z.land x 6 =? 0) with false; [reflexivity|]. symmetry. apply Z.eqb_neq. intros C.
    assert (D : Z.testbit (Z.land x 6) 2 = true) by (rewrite Z.land_spec, A; reflexivity). rewrite C in D. discriminate.
  - replace (Z.land x 6 =? 0) with false; [reflexivity|]. symmetry. apply Z.eqb_neq. intros C.
    assert (D : Z.testbit (Z.land x 6) 1 = true) by (rewrite Z.land_spec, B; reflexivity). rewrite C in D. discriminate.
  - replace (Z.land x 6) with 0; [reflexivity|]. symmetry. apply Z.bits_inj'. intros n Hn. rewrite Z.land_spec, Z.bits_0.
    destruct (Z.eq_dec n 1) as [->|N1]; [rewrite B; reflexivity|]. destruct (Z.eq_dec n 2) as [->|N2]; [rewrite A; reflexivity|].
    replace (Z.testbit 6 n) with false; [apply andb_false_r|]. symmetry.
    destruct (Z.eq_dec n 0) as [->|N0]; [reflexivity|]. apply Z.bits_above_log2; [lia|]. change (Z.log2 6) with 2. lia.
Qed.
Lemma clr_bits x k : 0 <= k <= 7 -> forall j, 0 <= j <= 7 -> ibit (Z.land x (Z.lnot (2 ^ (7 - k)))) j = (if j =? k then false else ibit x j).
Proof.
  intros K j J. unfold ibit. rewrite Z.land_spec, Z.lnot_spec, Z.pow2_bits_eqb by lia.
  destruct (Z.eqb_spec j k) as [->|N]; [rewrite Z.eqb_refl; apply andb_false_r|].
  replace (7 - k =? 7 - j) with false by lia. apply andb_true_r.
Qed.

Lemma trap_open s : on s priority_lch || on s read_call || on s allow_write = true ->
  (trap s)!priority_bus = 0 /\ (trap s)!priority_stack_reg = s!priority_stack_reg /\ (trap s)!any_priority_pulse = 0.
Proof.
  intros H. unfold trap. cbv zeta. set (c := negb (on _ priority_lch) && _ && _).
  assert (C : c = false).
  { unfold c, on in *. rewrite !get_set. cbn [reg_beq]. destruct (s!priority_lch =? 0); [|reflexivity].
    destruct (s!read_call =? 0); [|reflexivity]. destruct (s!allow_write =? 0); [discriminate|reflexivity]. }
  rewrite C. repeat split.
Qed.
Definition trap_result (s : cpu) (o : option (Z * list Z * Z)) (s' : cpu) : Prop :=
  match o with
  | Some (k, _, a) => s'!priority_bus = a /\ s'!any_priority_pulse = 1 /\
      s'!sel_chain_pulse = (if k =? 6 then 1 else s!sel_chain_pulse) /\ s'!mpx_share_pulse = (if k =? 7 then 1 else s!mpx_share_pulse) /\
      forall j, 0 <= j <= 7 -> ibit s'!priority_stack_reg j = (if j =? k then false else ibit s!priority_stack_reg j)
  | None => s'!priority_bus = 0 /\ s'!any_priority_pulse = 0 /\ s'!priority_stack_reg = s!priority_stack_reg
  end.
Lemma trap_chosen s : on s priority_lch = false -> on s read_call = false -> on s allow_write = false ->
  trap_result s (chosen (on s suppr_half_trap_lch || on s gate_sw_to_wx) s!priority_stack_reg s!H_REG) (trap s).
Proof.
  intros A B C. unfold trap. cbv zeta.
  replace (negb (on (s <[priority_bus := 0]> <[mach_chk_pulse := 0]>) priority_lch) && ((s <[priority_bus := 0]> <[mach_chk_pulse := 0]>)!read_call =? 0) &&
    ((s <[priority_bus := 0]> <[mach_chk_pulse := 0]>)!allow_write =? 0)) with true.
  2:{ unfold on in *. rewrite !get_set. cbn [reg_beq]. apply negb_false_iff in A. apply negb_false_iff in B. apply negb_false_iff in C. rewrite A, B, C. reflexivity. }
  change (on (s <[priority_bus := 0]> <[mach_chk_pulse := 0]>) suppr_half_trap_lch) with (on s suppr_half_trap_lch).
  change (on (s <[priority_bus := 0]> <[mach_chk_pulse := 0]>) gate_sw_to_wx) with (on s gate_sw_to_wx).
  change ((s <[priority_bus := 0]> <[mach_chk_pulse := 0]>)!priority_stack_reg) with (s!priority_stack_reg).
  change ((s <[priority_bus := 0]> <[mach_chk_pulse := 0]>)!H_REG) with (s!H_REG).
  rewrite !bit6.
  rewrite !(bit_i _ 0 128), !(bit_i _ 1 64), !(bit_i _ 2 32), !(bit_i _ 3 16), !(bit_i _ 4 8), !(bit_i _ 5 4), !(bit_i _ 6 2), !(bit_i _ 7 1) by (reflexivity || lia).
  rewrite <- negb_orb.
  set (hold := on s suppr_half_trap_lch || on s gate_sw_to_wx).
  unfold chosen, traps. cbn [find waiting forallb Z.eqb Pos.eqb andb]. rewrite ?andb_true_r.
  assert (R : forall k m a (masks : list Z) t, m = 2 ^ (7 - k) -> 0 <= k <= 7 -> a <> 0 -> t!priority_stack_reg = s!priority_stack_reg ->
     t!sel_chain_pulse = (if k =? 6 then 1 else s!sel_chain_pulse) -> t!mpx_share_pulse = (if k =? 7 then 1 else s!mpx_share_pulse) ->
     trap_result s (Some (k, masks, a)) (let s := clr priority_stack_reg m (t <[priority_bus := a]>) in s <[any_priority_pulse := b2z (on s priority_bus)]>)).
  { intros k m a masks t -> K N E P1 P2. cbv zeta. cbn [trap_result]. unfold clr, on. rewrite !get_set. cbn [reg_beq].
    split; [reflexivity|]. split; [replace (a =? 0) with false by lia; reflexivity|]. split; [exact P1|]. split; [exact P2|]. rewrite E. apply clr_bits, K. }
  cbv zeta in R.
  clearbody hold.
  destruct (ibit s!priority_stack_reg 0), hold; cbn [andb negb];
  destruct (ibit s!H_REG 5), (ibit s!H_REG 6); cbn [andb negb orb]; rewrite ?andb_false_r, ?andb_true_r; cbn [andb negb orb];
  repeat match goal with
  | |- context [if ?b && ?c then _ else _] => destruct (b && c)
  | |- context [if ibit ?x ?k then _ else _] => destruct (ibit x k)
  end; try (apply R; [reflexivity|lia|lia|reflexivity|reflexivity|reflexivity]).
  all: try (cbn [trap_result]; repeat split; reflexivity).
Qed.

Definition L_trap := [priority_bus; mach_chk_pulse; suppr_a_reg_chk; priority_stack_reg; force_ij_req; sel_chain_pulse; mpx_share_pulse; any_priority_pulse].
Lemma trap_frame s : frame L_trap s (trap s).
Proof. unfold trap. frs. Qed.
Lemma trap_sm s : sm s (trap s).
Proof. unfold trap. sms. Qed.

(** A dead cycle goes to the trap routine. *)
Lemma micro_dead ti sw w s : s!dead_cycle <> 0 -> micro ti sw w s = Ok (dead (s <[end_of_e_cycle := b2z (CL w =? 15)]>) (next_wx w s)).
Proof.
  intros D. assert (E : on s dead_cycle = true) by (unfold on; replace (s!dead_cycle =? 0) with false by lia; reflexivity).
  unfold micro, mem_read, mem_order. rewrite E, orb_true_r. cbn [bind]. rewrite E. cbn [bind]. cbv zeta.
  change (on (s <[end_of_e_cycle := b2z (CL w =? 15)]>) dead_cycle) with (on s dead_cycle). rewrite E. reflexivity.
Qed.
Lemma dead_wx s n : s!sel_chain_pulse = 0 -> (dead s n)!WX = s!priority_bus /\ (s!mpx_share_pulse <> 0 -> (dead s n)!FWX = s!WX /\ (dead s n)!MPX_X6X7 = Z.land n 3).
Proof.
  intros A. unfold dead. assert (E : on s sel_chain_pulse = false) by (unfold on; rewrite A; reflexivity). rewrite E. cbv zeta.
  destruct (on s mpx_share_pulse) eqn:F.
  - split; [|intros _; split]; gs; cbn [reg_beq]; repeat step_if; reflexivity.
  - split; [reflexivity|]. intros C. unfold on in F. apply negb_false_iff, Z.eqb_eq in F. contradiction.
Qed.
Lemma dead_sel s n : s!sel_chain_pulse <> 0 ->
  (dead s n)!GWX = s!WX /\ (dead s n)!SEL_X6X7 = Z.land n 3 /\
  ((dead s n)!WX = s!priority_bus \/ (dead s n)!WX = Z.lor s!priority_bus 3).
Proof.
  intros A. unfold dead. assert (E : on s sel_chain_pulse = true) by (unfold on; replace (s!sel_chain_pulse =? 0) with false by lia; reflexivity).
  rewrite E. cbv zeta. repeat step_if; rewrite !get_set; cbn [reg_beq]; repeat split; try reflexivity; try (left; reflexivity); right; reflexivity.
Qed.

(** *** The next address stays inside the control store unless it is taken from U and V. *)
Lemma lor_lt n a b : 0 <= n -> 0 <= a < 2 ^ n -> 0 <= b < 2 ^ n -> 0 <= Z.lor a b < 2 ^ n.
Proof.
  intros N A B. assert (P : 0 <= Z.lor a b) by (apply Z.lor_nonneg; lia). split; [exact P|].
  destruct (Z.eq_dec (Z.lor a b) 0) as [->|E]; [lia|].
  apply Z.log2_lt_pow2; [lia|]. rewrite Z.log2_lor by lia.
  assert (L : forall x, 0 <= x < 2 ^ n -> x <> 0 -> Z.log2 x < n) by (intros x X X0; apply Z.log2_lt_pow2; lia).
  destruct (Z.eq_dec a 0) as [->|Ea]; [|destruct (Z.eq_dec b 0) as [->|Eb]].
  - rewrite Z.lor_0_l in E. change (Z.log2 0) with 0. rewrite Z.max_r by apply Z.log2_nonneg. apply L; assumption.
  - change (Z.log2 0) with 0. rewrite Z.max_l by apply Z.log2_nonneg. apply L; assumption.
  - apply Z.max_lub_lt; apply L; assumption.
Qed.
Lemma land_lt a b : 0 <= b -> 0 <= Z.land a b <= b.
Proof.
  intros B. assert (P : 0 <= Z.land a b) by (apply Z.land_nonneg; lia). split; [exact P|].
  destruct (Z.eq_dec (Z.land a b) b) as [->|N]; [lia|]. apply Z.ldiff_le; [exact B|].
  apply Z.bits_inj'. intros n Hn. rewrite Z.ldiff_spec, Z.land_spec, Z.bits_0. destruct (Z.testbit a n), (Z.testbit b n); reflexivity.
Qed.
Ltac l12 := first [ exact (land_lt _ _ ltac:(lia)) | match goal with |- 0 <= Z.land ?a ?b < 4096 => pose proof (land_lt a b ltac:(lia)); lia end ].
Lemma rom_lor a b : in_rom a -> in_rom b -> in_rom (Z.lor a b).
Proof. exact (lor_lt 12 a b ltac:(lia)). Qed.
Lemma rom_land a b : 0 <= b < 4096 -> in_rom (Z.land a b).
Proof. intros H. pose proof (land_lt a b ltac:(lia)). unfold in_rom. lia. Qed.
Lemma next_wx_rom w s : word_ok w -> CK w <> 17 \/ s!U_REG mod 256 < 16 -> in_rom (next_wx w s).
Proof.
  intros W K. unfold next_wx. cbv zeta.
  assert (C : in_rom (CN w)) by (unfold word_ok, in_rom in *; lia).
  set (n1 := if x6 w s then _ else _). assert (N1 : in_rom n1).
  { unfold n1. step_if; repeat apply rom_lor; try apply rom_land; unfold in_rom; try lia; assumption. }
  set (n2 := if CL w =? 2 then _ else _). assert (N2 : in_rom n2).
  { unfold n2. repeat step_if; repeat apply rom_lor; try assumption; try (apply rom_land; lia); try (unfold in_rom; lia).
    rewrite Z.shiftl_mul_pow2 by lia. pose proof (land_lt (CA w) 15 ltac:(lia)). unfold in_rom. change (2 ^ 8) with 256. lia. }
  clearbody n1 n2. set (n3 := ck_branch w s n2). assert (N3 : in_rom n3).
  { unfold n3, ck_branch. assert (U : CK w = 17 -> in_rom (both s!U_REG s!V_REG)).
    { intros E. destruct K as [K|K]; [contradiction|]. unfold both. rewrite !land_ones8, Z.shiftl_mul_pow2 by lia. change (2 ^ 8) with 256.
      pose proof (Z.mod_pos_bound s!U_REG 256 ltac:(lia)). pose proof (Z.mod_pos_bound s!V_REG 256 ltac:(lia)). apply rom_lor; unfold in_rom; lia. }
    destruct (CK w) as [|q|q]; try assumption.
    repeat (match goal with |- context [match ?x with _ => _ end] => lazymatch x with xI _ => fail | xO _ => fail | xH => fail | _ => destruct x end end);
      try assumption; try (apply rom_land; lia). apply U. reflexivity. }
  clearbody n3. step_if; [|assumption]. apply rom_lor; [apply rom_land; lia|].
  rewrite Z.shiftl_mul_pow2 by lia. pose proof (land_lt (CK w) 15 ltac:(lia)). unfold in_rom. change (2 ^ 8) with 256. lia.
Qed.
Lemma go_wx s n : in_rom n -> 0 <= s!SEL_X6X7 < 4 -> 0 <= s!MPX_X6X7 < 4 -> in_rom (go s n)!WX.
Proof.
  intros N A B. unfold go. destruct (on s sel_ros_rest); repeat step_if; rewrite ?get_set; cbn [reg_beq]; rewrite ?get_set; cbn [reg_beq];
    repeat apply rom_lor; try (apply rom_land; lia); try assumption; unfold in_rom; rewrite ?get_set; cbn [reg_beq]; lia.
Qed.
Lemma dest_wx w s : in_rom s!WX -> in_rom s!GWX -> in_rom s!FWX -> in_rom (dest w s)!WX.
Proof.
  intros A B C. unfold dest. cbv zeta.
  repeat (match goal with |- context [match ?x with _ => _ end] => lazymatch x with xI _ => fail | xO _ => fail | xH => fail | (reg_beq _ _) => fail | _ => destruct x end end);
  gs; cbn [reg_beq]; try assumption.
Qed.
Lemma micro_rom ti sw w s s' : micro ti sw w s = Ok s' -> s!dead_cycle = 0 -> word_ok w -> CK w <> 17 \/ s!U_REG mod 256 < 16 ->
  in_rom s!GWX -> in_rom s!FWX -> 0 <= s!SEL_X6X7 < 4 -> 0 <= s!MPX_X6X7 < 4 ->
  in_rom s'!WX /\ s'!GWX = s!GWX /\ s'!FWX = s!FWX /\ s'!SEL_X6X7 = s!SEL_X6X7 /\ s'!MPX_X6X7 = s!MPX_X6X7 /\ s'!dead_cycle = 0.
Proof.
  intros H D W K G F X Y. pose proof (micro_parts _ _ _ _ _ H D) as p.
  pose proof (mem_fr _ _ _ _ (pe_read p) (pe_mem p)) as M. pose proof (pre_fr _ _ _ _ _ p) as P.
  pose proof (alu_fr _ _ _ _ _ p) as A. pose proof (post_fr _ _ _ _ _ p) as Q.
  split.
  - assert (N : in_rom (next_wx w (p_mem p))). { apply next_wx_rom; [exact W|]. rewrite (M U_REG eq_refl). exact K. }
    assert (CW : in_rom (p_ck p)!WX).
    { rewrite (pe_ck p). rewrite (ck_frame w _ WX eq_refl). apply go_wx; [exact N| |]; rewrite get_set; cbn [reg_beq]; [rewrite (M SEL_X6X7 eq_refl)|rewrite (M MPX_X6X7 eq_refl)]; assumption. }
    assert (AW : in_rom (p_alu p)!WX). { rewrite (A WX eq_refl), (bus_fr _ _ _ _ _ p WX eq_refl). exact CW. }
    assert (AG : in_rom (p_alu p)!GWX) by (rewrite (A GWX eq_refl), (P GWX eq_refl); exact G).
    assert (AF : in_rom (p_alu p)!FWX) by (rewrite (A FWX eq_refl), (P FWX eq_refl); exact F).
    clear - AW AG AF. revert AW AG AF. generalize (p_alu p) (pe_end p). intros u -> AW AG AF.
    rewrite (stops_frame sw w _ WX eq_refl), (cs_frame w _ WX eq_refl), (checks_frame sw w _ WX eq_refl). apply dest_wx; assumption.
  - repeat split; match goal with |- _ ! ?r = _ => rewrite (Q r eq_refl), (A r eq_refl), (P r eq_refl) end; (reflexivity || exact D).
Qed.
