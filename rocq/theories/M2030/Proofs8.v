(** Parity, the test of decimal digits, the keys of the console, traps and data of the selector channels. *)
From Verif Require Import M2030.Model M2030.Spec M2030.Proofs M2030.Proofs2 M2030.Proofs3 M2030.Proofs4 M2030.Proofs5 M2030.Proofs6 M2030.Proofs7.

(** *** Parity *)
Lemma alu_odd cv cc a b st old z k : alu cv cc a b st 0 old = Ok (z, k) -> odd9 z.
Proof.
  unfold alu. destruct (alu_sum _ _ _ _ _) as [z0 k0]. set (z1 := if cv =? 3 then _ else z0). intros H.
  destruct (tab odd_parity z1) as [p| |] eqn:E; cbn [bind] in H; try discriminate. pose proof (tab_range _ _ _ E) as R. change (Z.of_nat (length odd_parity)) with 256 in R.
  destruct (par_out z1 R) as (q & E' & O & _). rewrite Z.lxor_0_r in H. injection H as <- <-. congruence.
Qed.
Lemma ck_even w s : CK w <> 24 -> s!even_parity = 0 -> (ck_order w s)!even_parity = 0.
Proof. intros H E. unfold ck_order. destruct (CK w) as [|q|q]; [exact E| |exact E]. revert H. cases; intros H; gs; cbn [reg_beq]; congruence. Qed.
Lemma dest_kept w s r : In r kept -> (dest w s)!r = s!r \/ (dest w s)!r = s!Alu_out.
Proof.
  intros H. unfold dest. cbv zeta. destruct (CD w) as [|q|q]; [left; reflexivity| |left; reflexivity].
  cbn [In kept] in H. destruct H as [H|[H|[H|[H|[H|[H|[H|[H|[H|[]]]]]]]]]]; subst r; cases; gs; cbn [reg_beq]; auto.
Qed.
Lemma micro_kept ti sw w s s' : micro ti sw w s = Ok s' -> s!dead_cycle = 0 -> word_ok w -> CK w <> 24 -> s!even_parity = 0 ->
  (forall r, In r kept -> odd9 s!r) -> s'!dead_cycle = 0 /\ s'!even_parity = 0 /\ odd9 s'!Alu_out /\ (forall r, In r kept -> odd9 s'!r).
Proof.
  intros H D W K E O. pose proof (micro_parts _ _ _ _ _ H D) as p. pose proof (mem_fr _ _ _ _ (pe_read p) (pe_mem p)) as M. pose proof (rest_fr _ _ _ _ _ p) as F.
  assert (E1 : (p_ck p)!even_parity = 0).
  { rewrite (pe_ck p). apply ck_even; [exact K|]. rewrite (go_frame _ _ even_parity eq_refl). rewrite get_set. cbn [reg_beq]. rewrite (M even_parity eq_refl). exact E. }
  assert (E2 : s'!even_parity = 0).
  { rewrite (post_fr _ _ _ _ _ p even_parity eq_refl), (alu_fr _ _ _ _ _ p even_parity eq_refl), (bus_fr _ _ _ _ _ p even_parity eq_refl). exact E1. }
  pose proof (micro_alu _ _ _ _ _ p W) as A. rewrite E2 in A. apply alu_odd in A.
  split; [rewrite (F dead_cycle eq_refl), (M dead_cycle eq_refl); exact D|]. split; [exact E2|]. split; [exact A|].
  intros r R. assert (X : s'!r = (dest w (p_alu p))!r).
  { generalize (p_alu p) (pe_end p). intros u ->. cbn [In kept] in R.
    destruct R as [R|[R|[R|[R|[R|[R|[R|[R|[R|[]]]]]]]]]]; subst r;
      match goal with |- _ ! ?q = _ => rewrite (stops_frame sw w _ q eq_refl), (cs_frame w _ q eq_refl), (checks_frame sw w _ q eq_refl); reflexivity end. }
  rewrite X. destruct (dest_kept w (p_alu p) r R) as [Y|Y]; rewrite Y.
  - assert (Z1 : (p_alu p)!r = s!r); [|rewrite Z1; apply O, R].
    cbn [In kept] in R. destruct R as [R|[R|[R|[R|[R|[R|[R|[R|[R|[]]]]]]]]]]; subst r;
      match goal with |- _ ! ?q = _ => rewrite (up_alu _ _ _ _ _ p q eq_refl); exact (M q eq_refl) end.
  - rewrite <- (post_fr _ _ _ _ _ p Alu_out eq_refl). exact A.
Qed.
Lemma micros_kept ws : Forall (fun e => let '(_, w) := e in word_ok w /\ CK w <> 24) ws -> forall s s', micros ws s = Ok s' -> s!dead_cycle = 0 -> s!even_parity = 0 ->
  (forall r, In r kept -> odd9 s!r) -> forall r, In r kept -> odd9 s'!r.
Proof.
  induction 1 as [|((ti, sw), w) ws (A & B) _ IH]; intros s s' H D E O; cbn [micros] in H; [injection H as <-; exact O|].
  destruct (micro ti sw w s) as [u| |] eqn:M; cbn [bind] in H; try discriminate.
  destruct (micro_kept _ _ _ _ _ M D A B E O) as (D' & E' & _ & O'). exact (IH u s' H D' E' O').
Qed.

(** *** Decimal digits *)
Lemma vdd_low r : vdd r = vdd (r mod 256).
Proof.
  unfold vdd, bit. f_equal. f_equal. f_equal. apply Z.bits_inj'. intros n N. rewrite !Z.land_spec.
  destruct (Z.testbit 68 n) eqn:T; [|rewrite !andb_false_r; reflexivity]. rewrite !andb_true_r, !Z.lor_spec, !Z.shiftl_spec, !Z.shiftr_spec by exact N.
  assert (L : n = 2 \/ n = 6).
  { destruct (Z_lt_le_dec n 7) as [X|X].
    - assert (C : n = 0 \/ n = 1 \/ n = 2 \/ n = 3 \/ n = 4 \/ n = 5 \/ n = 6) by lia. destruct C as [->|[->|[->|[->|[->|[->| ->]]]]]]; auto; discriminate T.
    - rewrite Z.bits_above_log2 in T; [discriminate|lia|]. cbn. lia. }
  change 256 with (2 ^ 8). destruct L as [->| ->]; rewrite !Z.mod_pow2_bits_low by lia; reflexivity.
Qed.
Lemma vdd_spec r : vdd r = (hi r <=? 9) && (lo r <=? 9).
Proof.
  rewrite vdd_low. replace (hi r) with (hi (r mod 256)); [replace (lo r) with (lo (r mod 256))|].
  - pose proof (sweep 256 (fun r => Bool.eqb (vdd r) ((hi r <=? 9) && (lo r <=? 9))) ltac:(vm_compute; reflexivity) (r mod 256) ltac:(apply Z.mod_pos_bound; lia)) as S.
    apply eqb_prop, S.
  - unfold lo. Z.to_euclidean_division_equations. lia.
  - unfold hi. Z.to_euclidean_division_equations. lia.
Qed.
Lemma micro_vdd ti sw w s s' : micro ti sw w s = Ok s' -> s!dead_cycle = 0 -> CL w = 5 -> Z.testbit (CN w) 0 = false ->
  CK w <> 17 -> CK w <> 19 -> CK w <> 21 -> CK w <> 26 -> CD w <> 5 -> CD w <> 7 -> s!sel_ros_rest = 0 -> s!mpx_ros_rest = 0 ->
  Z.testbit s'!WX 0 = (hi s'!R_REG <=? 9) && (lo s'!R_REG <=? 9).
Proof.
  intros H D C N K1 K2 K3 K4 D5 D7 S1 S2. pose proof (micro_parts _ _ _ _ _ H D) as p. pose proof (mem_fr _ _ _ _ (pe_read p) (pe_mem p)) as M.
  rewrite (rest_R _ _ _ _ _ p (or_introl D7)). rewrite <- vdd_spec.
  assert (W1 : s'!WX = (p_ck p)!WX).
  { rewrite <- (bus_fr _ _ _ _ _ p WX eq_refl), <- (alu_fr _ _ _ _ _ p WX eq_refl). generalize (p_alu p) (pe_end p). intros u ->.
    rewrite (stops_frame sw w _ WX eq_refl), (cs_frame w _ WX eq_refl), (checks_frame sw w _ WX eq_refl).
    unfold dest. cbv zeta. destruct (CD w) as [|q|q]; [reflexivity| |reflexivity]. revert D5. cases; intros D5; gs; cbn [reg_beq]; congruence. }
  rewrite W1, (pe_ck p), (ck_frame w _ WX eq_refl). unfold go.
  assert (G1 : on (p_mem p <[end_of_e_cycle := b2z (CL w =? 15)]>) sel_ros_rest = false) by (apply on0; rewrite get_set; cbn [reg_beq]; rewrite (M sel_ros_rest eq_refl); exact S1).
  assert (G2 : on (p_mem p <[end_of_e_cycle := b2z (CL w =? 15)]>) mpx_ros_rest = false) by (apply on0; rewrite get_set; cbn [reg_beq]; rewrite (M mpx_ros_rest eq_refl); exact S2).
  rewrite G1, G2, get_set. cbn [reg_beq]. unfold next_wx. cbv zeta. rewrite C. cbn [Z.eqb Pos.eqb].
  set (n0 := Z.lor (Z.land (p_mem p)!WX 3840) (CN w)). assert (N0 : Z.testbit n0 0 = false) by (unfold n0; rewrite Z.lor_spec, Z.land_spec, N, andb_false_r; reflexivity).
  set (n1 := if x6 w (p_mem p) then _ else n0). assert (N1 : Z.testbit n1 0 = false) by (unfold n1; step_if; [rewrite Z.lor_spec, N0; reflexivity|exact N0]).
  set (n2 := if x7 w (p_mem p) then _ else n1). assert (N2 : Z.testbit n2 0 = vdd (p_mem p)!R_REG).
  { unfold n2, x7. rewrite C. destruct (vdd (p_mem p)!R_REG); [rewrite Z.lor_spec, N1; reflexivity|exact N1]. }
  clearbody n2. assert (N3 : Z.testbit (ck_branch w (p_mem p) n2) 0 = Z.testbit n2 0).
  { unfold ck_branch. destruct (CK w) as [|q|q]; [reflexivity| |reflexivity]. revert K1 K2 K3 K4.
    cases; intros K1 K2 K3 K4; try reflexivity; try congruence; rewrite Z.land_spec; apply andb_true_r. }
  rewrite <- N2, <- N3. step_if; [|reflexivity]. rewrite Z.lor_spec, Z.land_spec. change (Z.testbit 255 0) with true. rewrite andb_true_r, Z.shiftl_spec_low by lia. apply orb_false_r.
Qed.

(** *** Store and display *)
Lemma op_ok x : 0 <= x < 256 -> exists p, tab odd_parity x = Ok p /\ op x = p /\ 0 <= Z.lor x p < 512 /\ Z.lor x p mod 256 = x.
Proof.
  intros H. destruct (par_out x H) as (p & E & (R & _) & M & _). exists p. repeat split; try assumption; try lia.
  unfold op. rewrite land_ones8, Z.mod_small by exact H. unfold tab in E. replace (x <? 0) with false in E by lia.
  destruct (nth_error odd_parity (Z.to_nat x)) eqn:N; [|discriminate]. injection E as <-. apply nth_error_nth. exact N.
Qed.
Lemma only_upd a v l : 0 <= a -> only_at a l (upd l (Z.to_nat a) v).
Proof.
  intros A. split; [apply upd_length|]. intros i I P. destruct (nth_error l (Z.to_nat i)) as [x|] eqn:E.
  - rewrite (nth_error_nth _ _ 0 E). apply nth_error_nth. rewrite upd_other; [exact E|lia].
  - apply nth_error_None in E. rewrite !nth_overflow; rewrite ?upd_length; auto.
Qed.
Lemma nth_upd_same (l : list Z) i v : (i < length l)%nat -> nth i (upd l i v) 0 = v.
Proof. intros H. apply nth_error_nth. apply upd_same, H. Qed.
Lemma sw_byte h l : 0 <= h < 16 -> 0 <= l < 16 -> Z.lor (Z.shiftl h 4) l = 16 * h + l.
Proof. intros P Q. rewrite low_shift by (lia || (change (2 ^ 4) with 16; lia)). change (2 ^ 4) with 16. lia. Qed.
Lemma set_addr_ok mask sw s : switches_ok sw -> 0 <= s!N_REG < 512 -> (mask = false -> s!N_REG < 256) ->
  exists s', set_addr mask sw s = Ok s' /\ frame [M_REG; N_REG; MN_REG] s s' /\ sm s s' /\ s'!MN_REG = 256 * (16 * C_SW sw + D_SW sw) + s!N_REG mod 256 /\
    s'!N_REG mod 256 = s!N_REG mod 256 /\ 0 <= s'!N_REG < 512.
Proof.
  intros (S1 & S2 & S3 & S4 & S5 & S6 & S7 & S8) N K. destruct (wpar_ok (16 * A_SW sw + B_SW sw) ltac:(lia)) as (m & WM & _).
  destruct (op_ok (s!N_REG mod 256) ltac:(apply Z.mod_pos_bound; lia)) as (pn & TP & OP & RN & NM).
  assert (OPN : (if mask then Ok (op s!N_REG) else tab odd_parity s!N_REG) = Ok pn).
  { destruct mask; [|specialize (K eq_refl); rewrite Z.mod_small in TP by lia; exact TP]. f_equal. rewrite <- OP. unfold op. rewrite !land_ones8, Z.mod_mod by lia. reflexivity. }
  assert (LM : Z.lor s!N_REG pn mod 256 = s!N_REG mod 256).
  { rewrite <- NM. change 256 with (2 ^ 8). rewrite <- !Z.land_ones by lia. apply Z.bits_inj'. intros n P. rewrite !Z.land_spec, !Z.lor_spec, Z.land_spec.
    destruct (Z.testbit s!N_REG n), (Z.testbit pn n), (Z.testbit (Z.ones 8) n); reflexivity. }
  assert (PN : 0 <= pn < 512).
  { pose proof (sweep 256 (fun x => match tab odd_parity x with Ok p => (0 <=? p) && (p <? 512) | _ => false end) ltac:(vm_compute; reflexivity) (s!N_REG mod 256) ltac:(apply Z.mod_pos_bound; lia)) as S.
    cbn beta in S. rewrite TP in S. lia. }
  unfold set_addr. rewrite !sw_byte, WM by assumption. cbn [bind]. cbv zeta. gs. cbn [reg_beq]. rewrite OPN. cbn [bind].
  eexists. split; [reflexivity|]. split; [|split; [|split; [|split]]].
  - intros r O. split_out O. gs. known. reflexivity.
  - repeat split.
  - gs. cbn [reg_beq]. rewrite (proj2 (both_range _ _)). unfold pair16. rewrite LM, (Z.mod_small (16 * _ + _)) by lia. reflexivity.
  - gs. cbn [reg_beq]. exact LM.
  - gs. cbn [reg_beq]. apply (lor_lt 9); [lia|exact N|exact PN].
Qed.
Lemma store_main sw s : switches_ok sw -> E_SW sw = 32 -> s!allow_write = 0 -> 0 <= s!N_REG < 256 -> Z.of_nat (length (mm s)) = 65536 ->
  exists s1 b, store_key sw s = Ok s1 /\ odd9 b /\ b mod 256 = 16 * H_SW sw + J_SW sw /\ mm s1 = upd (mm s) (Z.to_nat (256 * (16 * C_SW sw + D_SW sw) + s!N_REG)) (Z.lxor b 256) /\
    ls s1 = ls s /\ mp s1 = mp s /\ s1!N_REG mod 256 = s!N_REG /\ 0 <= s1!N_REG < 512 /\ s1!allow_write = 0.
Proof.
  intros SW E A N L. pose proof SW as (S1 & S2 & S3 & S4 & S5 & S6 & S7 & S8). destruct (wpar_ok (16 * H_SW sw + J_SW sw) ltac:(lia)) as (b & WB & OB & MB).
  unfold store_key. rewrite sw_byte, WB by assumption. cbn [bind]. cbv zeta. rewrite E. cbn [Z.eqb Pos.eqb orb].
  set (t := s <[Bbus := b]> <[Alu_out := b]> <[Abus := b]>). rewrite (proj2 (on0 t allow_write)) by exact A.
  assert (NT : (t <[R_REG := b]>)!N_REG = s!N_REG) by reflexivity.
  destruct (set_addr_ok false sw (t <[R_REG := b]>)) as (u & -> & F & (M1 & M2 & M3 & M4) & MN & NM & NR); [exact SW|rewrite NT; lia|rewrite NT; lia|].
  cbn [bind]. rewrite NT in *. rewrite (Z.mod_small s!N_REG) in * by lia.
  assert (UR : u!R_REG = b) by (rewrite (F R_REG eq_refl); reflexivity). assert (UA : u!allow_write = 0) by (rewrite (F allow_write eq_refl); exact A).
  change (mm (t <[R_REG := b]>)) with (mm s) in M1. rewrite MN, UR, M1, put_ok by lia. cbn [bind].
  eexists. exists b. split; [reflexivity|]. split; [exact OB|]. split; [exact MB|]. split; [reflexivity|]. split; [exact M2|]. split; [exact M3|]. split; [exact NM|]. split; [exact NR|exact UA].
Qed.
Lemma display_main sw s : switches_ok sw -> E_SW sw = 32 -> s!allow_write = 0 -> 0 <= s!N_REG < 512 -> Z.of_nat (length (mm s)) = 65536 ->
  exists s2, display_key sw s = Ok s2 /\ same_storage s s2 /\ s2!R_REG = u16 (Z.lxor (nth (Z.to_nat (256 * (16 * C_SW sw + D_SW sw) + s!N_REG mod 256)) (mm s) 0) 256).
Proof.
  intros SW E A N L. pose proof SW as (S1 & S2 & S3 & S4 & S5 & S6 & S7 & S8).
  unfold display_key. cbv zeta. rewrite E. cbn [Z.eqb Pos.eqb orb]. rewrite (proj2 (on0 (s <[Abus := 0]>) allow_write)) by exact A.
  destruct (set_addr_ok true sw (s <[Abus := 0]>)) as (u & -> & F & (M1 & M2 & M3 & M4) & MN & NM & NR); [exact SW|exact N|discriminate|].
  cbn [bind]. change ((s <[Abus := 0]>)!N_REG) with (s!N_REG) in MN. change (mm (s <[Abus := 0]>)) with (mm s) in M1.
  pose proof (Z.mod_pos_bound s!N_REG 256 ltac:(lia)). rewrite MN, M1, tab_nth by lia. cbn [bind]. eexists. split; [reflexivity|].
  split; [repeat split; assumption|]. rewrite !get_set. reflexivity.
Qed.
Lemma store_display sw s : switches_ok sw -> E_SW sw = 32 -> s!allow_write = 0 -> 0 <= s!N_REG < 256 -> Z.of_nat (length (mm s)) = 65536 ->
  let a := 256 * (16 * C_SW sw + D_SW sw) + s!N_REG in
  exists s1 s2, store_key sw s = Ok s1 /\ only_at a (mm s) (mm s1) /\ ls s1 = ls s /\ mp s1 = mp s /\
    display_key sw s1 = Ok s2 /\ same_storage s1 s2 /\ odd9 s2!R_REG /\ s2!R_REG mod 256 = 16 * H_SW sw + J_SW sw.
Proof.
  intros SW E A N L. cbv zeta. pose proof SW as (S1 & S2 & S3 & S4 & S5 & S6 & S7 & S8).
  destruct (store_main sw s SW E A N L) as (s1 & b & E1 & OB & MB & M & Ls & Mp & NM & NR & AW). exists s1.
  destruct (display_main sw s1 SW E AW NR) as (s2 & E2 & SS & R); [rewrite M, upd_length; exact L|]. exists s2.
  split; [exact E1|]. split; [rewrite M; apply only_upd; lia|]. split; [exact Ls|]. split; [exact Mp|]. split; [exact E2|]. split; [exact SS|].
  rewrite NM, M, nth_upd_same, Z.lxor_assoc, Z.lxor_nilpotent, Z.lxor_0_r in R by lia. unfold u16 in R. rewrite ?Z.land_ones in R by lia.
  pose proof OB as [RB _]. change (2 ^ 16) with 65536 in R. rewrite Z.mod_small in R by lia. rewrite R. auto.
Qed.
(** Registers: the same position of switch E. *)
Lemma store_display_reg sw s e r : switches_ok sw -> E_SW sw = e -> In (e, r) [(16, Q_REG); (48, I_REG); (49, J_REG); (50, U_REG); (51, V_REG); (52, L_REG); (53, T_REG); (54, D_REG); (55, R_REG); (57, G_REG); (58, H_REG)] ->
  exists s1 s2, store_key sw s = Ok s1 /\ display_key sw s1 = Ok s2 /\ same_storage s s1 /\ same_storage s1 s2 /\ odd9 s2!Abus /\ s2!Abus mod 256 = 16 * H_SW sw + J_SW sw /\
    s2!r = s2!Abus /\ frame [Bbus; Alu_out; Abus; r] s s1.
Proof.
  intros SW E I.
  destruct SW as (S1 & S2 & S3 & S4 & S5 & S6 & S7 & S8). destruct (wpar_ok (16 * H_SW sw + J_SW sw) ltac:(lia)) as (b & WB & OB & MB).
  unfold store_key. rewrite sw_byte, WB by assumption. cbn [bind]. cbv zeta. rewrite E.
  cbn [In] in I. repeat match type of I with _ \/ _ => destruct I as [I|I] end; try contradiction; injection I as <- <-; cbn [Z.eqb Pos.eqb orb store_reg];
    eexists; unfold display_key; rewrite E; cbv zeta; cbn [Z.eqb Pos.eqb orb andb display_reg];
    match goal with |- context [on ?x allow_write] => destruct (on x allow_write) | _ => idtac end; cbn [negb andb];
    (eexists; split; [reflexivity|]; split; [reflexivity|]; split; [repeat split|]; split; [repeat split|]; gs; cbn [reg_beq]; split; [exact OB|]; split; [exact MB|]; split; [reflexivity|];
     intros q O; split_out O; gs; known; reflexivity).
Qed.

(** *** Traps *)
Lemma trap_cycle ti sw rom s w k ms a : fetch rom s = Ok w -> s!priority_lch = 0 -> s!read_call = 0 -> s!allow_write = 0 -> s!sel_share_req = 0 -> s!sel_ros_rest = 0 -> s!mpx_ros_rest = 0 ->
  s!sel_chain_pulse = 0 -> s!mpx_share_pulse = 0 ->
  chosen (on s suppr_half_trap_lch || on s gate_sw_to_wx) s!priority_stack_reg s!H_REG = Some (k, ms, a) ->
  exists s', cycle ti sw rom s = Ok s' /\ same_storage s s' /\ s'!priority_lch = 1 /\ s'!dead_cycle = 0 /\
    (k <> 6 -> s'!WX = a) /\ (k = 6 -> (s'!WX = a \/ s'!WX = Z.lor a 3) /\ s'!GWX = s!WX) /\ (k = 7 -> s'!FWX = s!WX) /\
    (forall j, 0 <= j <= 7 -> ibit s'!priority_stack_reg j = (if j =? k then false else ibit s!priority_stack_reg j)).
Proof.
  intros FE PL RC AW SH SR MR CP SP CH. pose proof (trap_chosen s (proj2 (on0 _ _) PL) (proj2 (on0 _ _) RC) (proj2 (on0 _ _) AW)) as T. rewrite CH in T.
  destruct T as (PB & PP & TC & TM & PS). pose proof (trap_frame s) as F. destruct (trap_sm s) as (Mm & Ml & Mp & Mx).
  unfold cycle. cbv zeta. revert PB PP TC TM PS F Mm Ml Mp Mx. generalize (trap s). intros t PB PP TC TM PS F Mm Ml Mp Mx.
  assert (ST : sel_turn t = false) by (unfold sel_turn; rewrite (proj2 (on0 t sel_share_req)) by (rewrite (F sel_share_req eq_refl); exact SH); reflexivity).
  rewrite ST. unfold enter. rewrite (proj2 (on1 t any_priority_pulse)) by lia. rewrite (proj2 (on0 t sel_ros_rest)) by (rewrite (F sel_ros_rest eq_refl); exact SR).
  rewrite (proj2 (on0 t mpx_ros_rest)) by (rewrite (F mpx_ros_rest eq_refl); exact MR). cbn [andb negb].
  set (u := t <[priority_lch := 1]> <[clock_start_lch := 1]> <[dead_cycle := 1]>). rewrite (proj2 (on1 u clock_start_lch)) by (unfold u; gs; cbn; lia).
  assert (FU : fetch rom u = Ok w). { unfold fetch in *. unfold u. gs. cbn [reg_beq]. rewrite (F WX eq_refl). exact FE. }
  rewrite FU. cbn [bind]. rewrite micro_dead by (unfold u; gs; cbn; lia). eexists. split; [reflexivity|]. set (n := next_wx w u). set (v := u <[end_of_e_cycle := _]>).
  pose proof (dead_frame v n) as DF. destruct (dead_sm v n) as (Nm & Nl & Np & _).
  assert (V : forall r, reg_beq r end_of_e_cycle = false -> reg_beq r priority_lch = false -> reg_beq r clock_start_lch = false -> reg_beq r dead_cycle = false -> v!r = t!r).
  { intros r R1 R2 R3 R4. unfold v, u. gs. known. reflexivity. }
  split; [repeat split; rewrite ?Nm, ?Nl, ?Np; assumption|]. split; [rewrite (DF priority_lch eq_refl); reflexivity|]. split; [unfold dead; cbv zeta; gs; reflexivity|].
  split.
  { intros K6. destruct (dead_wx v n) as [D _]; [rewrite (V sel_chain_pulse) by reflexivity; rewrite TC; replace (k =? 6) with false by lia; exact CP|].
    rewrite D, (V priority_bus) by reflexivity. exact PB. }
  split.
  { intros ->. destruct (dead_sel v n) as (D1 & _ & D3); [rewrite (V sel_chain_pulse) by reflexivity; rewrite TC; discriminate|].
    rewrite (V priority_bus), PB in D3 by reflexivity. split; [exact D3|]. rewrite D1, (V WX) by reflexivity. apply (F WX eq_refl). }
  split.
  { intros ->. destruct (dead_wx v n) as [_ D]; [rewrite (V sel_chain_pulse) by reflexivity; rewrite TC; exact CP|].
    destruct D as [D _]; [rewrite (V mpx_share_pulse) by reflexivity; rewrite TM; discriminate|]. rewrite D, (V WX) by reflexivity. apply (F WX eq_refl). }
  intros j J. rewrite (DF priority_stack_reg eq_refl), (V priority_stack_reg) by reflexivity. apply PS, J.
Qed.
(** No trap, or none that may: the microinstruction goes on. *)
Lemma no_trap_cycle ti sw rom s w : fetch rom s = Ok w -> s!sel_share_req = 0 -> s!clock_start_lch <> 0 ->
  s!priority_lch <> 0 \/ s!read_call <> 0 \/ s!allow_write <> 0 \/ chosen (on s suppr_half_trap_lch || on s gate_sw_to_wx) s!priority_stack_reg s!H_REG = None ->
  exists t, cycle ti sw rom s = micro ti sw w t /\ same_storage s t /\ (forall r, outside L_trap r -> t!r = s!r) /\ t!any_priority_pulse = 0 /\ t!priority_stack_reg = s!priority_stack_reg.
Proof.
  intros FE SH CS H.
  assert (T : (trap s)!priority_bus = 0 /\ (trap s)!priority_stack_reg = s!priority_stack_reg /\ (trap s)!any_priority_pulse = 0).
  { destruct (on s priority_lch || on s read_call || on s allow_write) eqn:B; [apply trap_open, B|].
    apply orb_false_elim in B as [B B3]. apply orb_false_elim in B as [B1 B2]. pose proof (trap_chosen s B1 B2 B3) as T. apply on0 in B1. apply on0 in B2. apply on0 in B3.
    destruct H as [H|[H|[H|H]]]; try lia. rewrite H in T. destruct T as (T1 & T2 & T3). auto. }
  destruct T as (T1 & T2 & T3). pose proof (trap_frame s) as F. destruct (trap_sm s) as (Mm & Ml & Mp & Mx). exists (trap s).
  split; [|repeat split; assumption].
  unfold cycle. cbv zeta. unfold sel_turn. rewrite (proj2 (on0 (trap s) sel_share_req)) by (rewrite (F sel_share_req eq_refl); exact SH). cbn [andb].
  unfold enter. rewrite (proj2 (on0 (trap s) any_priority_pulse)) by exact T3. cbn [andb].
  rewrite (proj2 (on1 (trap s) clock_start_lch)) by (rewrite (F clock_start_lch eq_refl); exact CS).
  assert (FU : fetch rom (trap s) = Ok w) by (unfold fetch in *; rewrite (F WX eq_refl); exact FE). rewrite FU. reflexivity.
Qed.

(** *** Selector channels: a byte of data *)
Lemma sel_byte (c : bool) s : s!sel_share_req = (if c then 2 else 1) -> s!(sel_read_cycle c) <> 0 ->
  Z.of_nat (length (mm s)) = 65536 -> length (mp s) = 256%nat -> 0 <= s!(GU c) < 512 -> 1 <= pair16 s!(GC c) s!(GD c) ->
  (if s!(GG (ch s)) =? 268 then 1 <= pair16 s!(GU c) s!(GV c) else pair16 s!(GU c) s!(GV c) < 65535) ->
  exists s1 s2, sel_step s = Ok s1 /\ sel_step s1 = Ok s2 /\ odd9 s2!(GC c) /\ odd9 s2!(GD c) /\ odd9 s2!(GU c) /\ odd9 s2!(GV c) /\
    pair16 s2!(GC c) s2!(GD c) = pair16 s!(GC c) s!(GD c) - 1 /\
    pair16 s2!(GU c) s2!(GV c) = pair16 s!(GU c) s!(GV c) + (if s!(GG (ch s)) =? 268 then - 1 else 1) /\ s1!MN_REG = pair16 s!(GU c) s!(GV c).
Proof.
  intros SH RC LM LP RU CN AD.
  assert (CC : forall t, t!sel_share_req = s!sel_share_req -> negb (bit t!sel_share_req 1) = c) by (intros t ->; rewrite SH; destruct c; reflexivity).
  destruct (sel_read_ok c s LM LP RU CN) as (s1 & E1 & A1 & A2 & A3 & A4 & A5 & A6 & A7 & A8 & A9 & A10 & A11 & A12).
  exists s1. destruct (sel_write_ok c s1) as (s2 & E2 & B1 & B2 & B3 & B4 & B5).
  { destruct A12 as (-> & _). exact LM. }
  { rewrite A6. unfold pair16. pose proof (Z.mod_pos_bound s!(GU c) 256 ltac:(lia)). pose proof (Z.mod_pos_bound s!(GV c) 256 ltac:(lia)). lia. }
  { assert (CS : ch s1 = ch s) by (unfold ch, on; rewrite A10; reflexivity). rewrite CS, A11, A1, A2. exact AD. }
  exists s2. assert (CS : ch s1 = ch s) by (unfold ch, on; rewrite A10; reflexivity). rewrite CS, A11 in B5.
  split. { unfold sel_step. cbv zeta. rewrite (CC s eq_refl), (proj2 (on1 _ _) RC). exact E1. }
  split. { unfold sel_step. cbv zeta. rewrite (CC s1 A9), (proj2 (on0 _ _) A8). rewrite (proj2 (on1 s1 (sel_write_cycle c))) by (rewrite A7; lia). exact E2. }
  rewrite B1, B2. do 5 (split; [assumption|]). split; [rewrite B5, A1, A2; reflexivity|exact A6].
Qed.
(** Where the write half puts data. *)
Lemma sel_write_data c s s' : sel_write c s = Ok s' -> 0 <= s!MN_REG < Z.of_nat (length (mm s)) ->
  let input := on s (sel_gr_full c) && is_in s!(GG c) in
  let wrong := negb (hi s!(GK c) =? 0) && negb (hi s!(GK c) =? lo s!Q_REG) in
  ls s' = ls s /\ mp s' = mp s /\
  mm s' = (if input && negb (ibit s!(GF c) 3) then upd (mm s) (Z.to_nat s!MN_REG) (if wrong then u16 (nth (Z.to_nat s!MN_REG) (mm s) 0) else s!(GR c)) else mm s).
Proof.
  intros H R. cbv zeta. unfold sel_write in H. destruct (sel_swap c (sel_incr c s)) as [t| |] eqn:E1; cbn [bind] in H; try discriminate.
  destruct (sel_store c (t <[sel_write_cycle c := 0]>)) as [u| |] eqn:E2; cbn [bind] in H; try discriminate. injection H as <-.
  assert (T : frame [GHZ; GHY; GE c; GC c; GD c; GU c; GV c] s t /\ sm s t).
  { unfold sel_swap in E1. cbv zeta in E1. destruct (wpar _) as [v| |]; cbn [bind] in E1; try discriminate. destruct (wpar _) as [x| |] in E1; cbn [bind] in E1; try discriminate.
    injection E1 as <-. unfold sel_incr. cbv zeta. destruct (if _ =? 268 then _ else _) as [y z].
    split; [destruct c; frs|sms]. }
  destruct T as (F & (M1 & M2 & M3 & M4)).
  assert (SE : forall x, sm x (sel_end c x)) by (intros x; unfold sel_end; sms). destruct (SE u) as (N1 & N2 & N3 & _). rewrite N1, N2, N3. clear N1 N2 N3 SE.
  set (t1 := t <[sel_write_cycle c := 0]>) in E2.
  assert (G : forall r, outside [GHZ; GHY; GE c; GC c; GD c; GU c; GV c; sel_write_cycle c] r -> t1!r = s!r).
  { intros r O. unfold t1. rewrite get_set. assert (Or : reg_beq r (sel_write_cycle c) = false) by (split_out O; assumption). rewrite Or. apply F.
    clear - O. unfold outside in *. cbn [existsb] in *. repeat match goal with X : (_ || _)%bool = false |- _ => apply orb_false_elim in X as [? X] end. known. reflexivity. }
  assert (Gf : t1!(sel_gr_full c) = s!(sel_gr_full c)) by (apply G; destruct c; reflexivity). assert (Gg : t1!(GG c) = s!(GG c)) by (apply G; destruct c; reflexivity).
  assert (Gk : t1!(GK c) = s!(GK c)) by (apply G; destruct c; reflexivity). assert (Gq : t1!Q_REG = s!Q_REG) by (apply G; destruct c; reflexivity).
  assert (Gm : t1!MN_REG = s!MN_REG) by (apply G; destruct c; reflexivity). assert (Gr : t1!(GR c) = s!(GR c)) by (apply G; destruct c; reflexivity).
  assert (GF1 : t1!(GF c) = s!(GF c)) by (apply G; destruct c; reflexivity).
  assert (Mm : mm t1 = mm s) by exact M1. assert (Ml : ls t1 = ls s) by exact M2. assert (Mp : mp t1 = mp s) by exact M3. clearbody t1.
  unfold sel_store in E2. unfold on in E2 at 1. rewrite Gf, Gg in E2. fold (on s (sel_gr_full c)) in E2.
  destruct (on s (sel_gr_full c) && is_in s!(GG c)); cbn [andb]; [|injection E2 as <-; auto].
  rewrite Gk, Gq, bit240, bit_xor15, shr4 in E2. change (lo (s!(GK c) / 16)) with (hi s!(GK c)) in E2.
  assert (B16 : forall x, bit x 16 = ibit x 3) by (intros x; apply bit_i; [reflexivity|lia]).
  destruct (negb (hi s!(GK c) =? 0) && negb (hi s!(GK c) =? lo s!Q_REG)).
  - rewrite Gm, Mm, tab_nth in E2 by exact R. cbn [bind] in E2.
    match type of E2 with context [bit ?x!(GF c) 16] => assert (GX : x!(GF c) = s!(GF c)) by (gs; destruct c; cbn [reg_beq internal_bool_beq Bool.eqb]; exact GF1) end.
    rewrite GX, B16 in E2. destruct (ibit s!(GF c) 3); cbn [negb bind] in E2.
    + injection E2 as <-. step_if; cbn [mm ls mp set orr]; auto.
    + match type of E2 with context [put (mm ?x) ?x!MN_REG ?x!(GR c)] => change (mm x) with (mm t1) in E2; change (x!MN_REG) with (t1!MN_REG) in E2; replace (x!(GR c)) with (u16 (nth (Z.to_nat s!MN_REG) (mm s) 0)) in E2 by (gs; destruct c; reflexivity) end.
      rewrite Gm, Mm, put_ok in E2 by exact R. cbn [bind] in E2. injection E2 as <-. step_if; cbn [mm ls mp set orr set_mm]; auto.
  - cbn [bind] in E2. rewrite GF1, B16 in E2. destruct (ibit s!(GF c) 3); cbn [negb bind] in E2.
    + injection E2 as <-. step_if; cbn [mm ls mp set orr]; auto.
    + rewrite Gm, Mm, Gr, put_ok in E2 by exact R. cbn [bind] in E2. injection E2 as <-. step_if; cbn [mm ls mp set orr set_mm]; auto.
Qed.

(** *** What comes to the adder and where its result goes *)
Ltac in_tab H := cbn [In] in H; repeat match type of H with _ \/ _ => destruct H as [H|H] end; try contradiction; injection H as H ?; subst.
Lemma a_bus_reg ti sw w s s' r : a_bus ti sw w s = Ok s' -> In (CA w, r) a_regs -> s'!Abus = s!r.
Proof.
  intros H I. unfold a_bus in H. destruct (a_gate ti sw w s) as [t| |] eqn:E; cbn [bind] in H; try discriminate. injection H as <-.
  match goal with |- ?x = _ => assert (X : x = t!Abus) end; [repeat step_if; gs; reflexivity|]. rewrite X. clear X. unfold a_gate in E. cbv zeta in E. unfold a_plain in E.
  unfold a_regs in I. in_tab I; symmetry in I; rewrite I in E; cbn [bind] in E; injection E as <-; gs; reflexivity.
Qed.
Lemma b_bus_reg sw w s s' : b_bus sw w s = Ok s' -> CK w <> 20 -> (forall r, In (CB w, r) b_regs -> s'!Bbus = s!r) /\ (CB w = 3 -> odd9 s'!Bbus /\ s'!Bbus mod 256 = 17 * (CK w mod 16)).
Proof.
  intros H K. unfold b_bus in H. replace (CK w =? 20) with false in H by lia. split.
  - intros r I. unfold b_regs in I. in_tab I; symmetry in I; rewrite I in H; cbn [bind] in H; injection H as <-; step_if; gs; reflexivity.
  - intros C. rewrite C in H.
    assert (V : Z.lor (Z.land (Z.shiftl (CK w) 4) 240) (Z.land (CK w) 15) = 17 * (CK w mod 16)).
    { rewrite shl4, land_ones4. pose proof (lo_range (CK w)). rewrite Z.lor_comm. fold (lo (CK w)). rewrite lor_split by assumption. lia. }
    rewrite V in H. pose proof (lo_range (CK w)) as L. unfold lo in L. destruct (wpar_ok (17 * (CK w mod 16)) ltac:(lia)) as (y & E & O & M). rewrite E in H. cbn [bind] in H. injection H as <-.
    match goal with |- odd9 ?x /\ _ => assert (X : x = y) by (step_if; gs; reflexivity) end. rewrite X. auto.
Qed.
Lemma dest_reg w s r : In (CD w, r) d_regs -> (dest w s)!r = s!Alu_out.
Proof. intros I. unfold dest. cbv zeta. unfold d_regs in I. in_tab I; symmetry in I; rewrite I; repeat step_if; gs; reflexivity. Qed.
Lemma dest_other w s r : In r kept -> ~ In (CD w, r) d_regs -> (dest w s)!r = s!r.
Proof.
  intros I N. unfold dest. cbv zeta. destruct (CD w) as [|q|q]; [reflexivity| |reflexivity]. revert N.
  cbn [In kept] in I. destruct I as [I|[I|[I|[I|[I|[I|[I|[I|[I|[]]]]]]]]]]; subst r; cases; intros N; gs; cbn [reg_beq]; try reflexivity; exfalso; apply N; cbn [In d_regs]; auto 12.
Qed.
Lemma kept_out r : In r kept -> outside L_mem r /\ outside ([end_of_e_cycle] ++ L_go ++ L_ck ++ L_bus ++ L_alu) r /\ outside L_stops r /\ outside L_cs r /\ outside L_checks r.
Proof. intros R. cbn [In kept] in R. destruct R as [R|[R|[R|[R|[R|[R|[R|[R|[R|[]]]]]]]]]]; subst r; repeat split. Qed.
Lemma micro_operands ti sw w s s' : micro ti sw w s = Ok s' -> s!dead_cycle = 0 -> CK w <> 20 -> CK w <> 29 ->
  (forall r, In (CA w, r) a_regs -> s'!Abus = s!r) /\ (forall r, In (CB w, r) b_regs -> s'!Bbus = s!r) /\
  (CB w = 3 -> odd9 s'!Bbus /\ s'!Bbus mod 256 = 17 * (CK w mod 16)) /\
  (forall r, In (CD w, r) d_regs -> s'!r = s'!Alu_out) /\ (forall r, In r kept -> ~ In (CD w, r) d_regs -> s'!r = s!r).
Proof.
  intros H D K K9. pose proof (micro_parts _ _ _ _ _ H D) as p. pose proof (mem_fr _ _ _ _ (pe_read p) (pe_mem p)) as M.
  pose proof (post_fr _ _ _ _ _ p) as Q. pose proof (alu_fr _ _ _ _ _ p) as A. pose proof (a_bus_fr _ _ _ _ : fr _ (p_b p) (a_bus ti sw w (p_b p))) as FA. rewrite (pe_a p) in FA. cbn [fr] in FA.
  pose proof (ck_fr_mem _ _ _ _ _ p) as CK'.
  assert (FT' : (p_ck p)!FT = (p_mem p)!FT).
  { rewrite (pe_ck p). match goal with |- (ck_order w ?x)!FT = _ => set (g := x); assert (G : g!FT = (p_mem p)!FT) by (unfold g; rewrite (go_frame _ _ FT eq_refl); reflexivity) end.
    unfold ck_order. destruct (CK w) as [|q|q]; [exact G| |exact G]. revert K9. cases; intros K9; gs; cbn [reg_beq]; congruence. }
  pose proof (b_bus_fr sw w (p_ck p)) as FB. rewrite (pe_b p) in FB. cbn [fr] in FB.
  assert (XB : s'!Bbus = (p_b p)!Bbus) by (rewrite (Q Bbus eq_refl), (A Bbus eq_refl), (FA Bbus eq_refl); reflexivity).
  assert (XA : s'!Abus = (p_a p)!Abus) by (rewrite (Q Abus eq_refl), (A Abus eq_refl); reflexivity).
  destruct (b_bus_reg _ _ _ _ (pe_b p) K) as [B1 B2].
  split; [|split; [|split; [|split]]].
  - intros r I. rewrite XA, (a_bus_reg _ _ _ _ _ _ (pe_a p) I). unfold a_regs in I. clear - I M CK' FB FT'.
    cbn [In] in I; repeat match type of I with _ \/ _ => destruct I as [I|I] end; try contradiction; injection I as _ <-;
      match goal with |- _ ! ?q = _ => rewrite (FB q eq_refl); first [rewrite FT'|rewrite (CK' q eq_refl)]; exact (M q eq_refl) end.
  - intros r I. rewrite XB, (B1 r I). unfold b_regs in I. clear - I M CK'.
    cbn [In] in I; repeat match type of I with _ \/ _ => destruct I as [I|I] end; try contradiction; injection I as _ <-;
      match goal with |- _ ! ?q = _ => rewrite (CK' q eq_refl); exact (M q eq_refl) end.
  - rewrite XB. exact B2.
  - intros r I. rewrite (Q Alu_out eq_refl). assert (R : In r kept) by (clear - I; unfold d_regs in I; cbn [In] in I; repeat match type of I with _ \/ _ => destruct I as [I|I] end; try contradiction; injection I as _ <-; cbn [In kept]; auto 12).
    destruct (kept_out r R) as (_ & _ & O1 & O2 & O3). generalize (p_alu p) (pe_end p). intros u ->.
    rewrite (stops_frame sw w _ r O1), (cs_frame w _ r O2), (checks_frame sw w _ r O3). apply dest_reg, I.
  - intros r R N. destruct (kept_out r R) as (O5 & O4 & O1 & O2 & O3). rewrite <- (M r O5), <- (up_alu _ _ _ _ _ p r O4). generalize (p_alu p) (pe_end p). intros u ->.
    rewrite (stops_frame sw w _ r O1), (cs_frame w _ r O2), (checks_frame sw w _ r O3). apply dest_other; assumption.
Qed.
Lemma outside_rom rom s : length rom = Z.to_nat 4096 -> 4096 <= s!WX -> fetch rom s = UB.
Proof.
  intros L W. unfold fetch. replace (s!WX <? 0) with false by lia. assert (N : nth_error rom (Z.to_nat s!WX) = None); [|rewrite N; reflexivity].
  apply nth_error_None. rewrite L. apply Z2Nat.inj_le; lia.
Qed.
Lemma even9 b : odd9 b -> odd_bits 9 (Z.lxor b 256) = false.
Proof.
  intros [R O]. pose proof (sweep 512 (fun b => negb (odd_bits 9 b) || negb (odd_bits 9 (Z.lxor b 256))) ltac:(vm_compute; reflexivity) b R) as S. cbn beta in S.
  rewrite O in S. destruct (odd_bits 9 (Z.lxor b 256)); [discriminate|reflexivity].
Qed.
Lemma store_parity sw s : switches_ok sw -> E_SW sw = 32 -> s!allow_write = 0 -> 0 <= s!N_REG < 256 -> Z.of_nat (length (mm s)) = 65536 ->
  exists s1, store_key sw s = Ok s1 /\ odd_bits 9 (nth (Z.to_nat (256 * (16 * C_SW sw + D_SW sw) + s!N_REG)) (mm s1) 0) = false.
Proof.
  intros SW E A N L. destruct (store_main sw s SW E A N L) as (s1 & b & E1 & OB & MB & M & _). exists s1. split; [exact E1|].
  destruct SW as (S1 & S2 & S3 & S4 & S5 & S6 & S7 & S8). rewrite M, nth_upd_same by lia. apply even9, OB.
Qed.
