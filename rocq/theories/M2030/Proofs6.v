(** Storage: protection, regeneration, memory safety. *)
From Verif Require Import M2030.Model M2030.Spec M2030.Proofs M2030.Proofs2 M2030.Proofs3 M2030.Proofs4 M2030.Proofs5.

Definition L_rest := [end_of_e_cycle] ++ L_go ++ L_ck ++ L_bus ++ L_alu ++ L_post.
Lemma rest_fr ti sw w s s' (p : parts ti sw w s s') : frame L_rest (p_mem p) s'.
Proof.
  eapply frame_trans; [exact (frame_weak _ L_rest _ _ (ck_fr_mem _ _ _ _ _ p) eq_refl)|].
  eapply frame_trans; [exact (frame_weak _ L_rest _ _ (bus_fr _ _ _ _ _ p) eq_refl)|].
  eapply frame_trans; [exact (frame_weak _ L_rest _ _ (alu_fr _ _ _ _ _ p) eq_refl)|exact (frame_weak _ L_rest _ _ (post_fr _ _ _ _ _ p) eq_refl)].
Qed.
Ltac cases := repeat (match goal with |- context [match ?x with _ => _ end] => lazymatch x with xI _ => fail | xO _ => fail | xH => fail | (reg_beq _ _) => fail | _ => destruct x end end).
Lemma dest_R w s : CD w <> 7 -> (dest w s)!R_REG = s!R_REG.
Proof.
  intros H. unfold dest. cbv zeta. destruct (CD w) as [|q|q]; [|revert H|]; [reflexivity| |reflexivity]. cases; intros H; gs; cbn [reg_beq]; congruence.
Qed.
Lemma dest_Q w s : CD w <> 3 -> (dest w s)!Q_REG = s!Q_REG.
Proof.
  intros H. unfold dest. cbv zeta. destruct (CD w) as [|q|q]; [|revert H|]; [reflexivity| |reflexivity]. cases; intros H; gs; cbn [reg_beq]; congruence.
Qed.
Lemma dest_R_prot w s : on s allow_write && on s protect_loc || on s mem_prot = true -> (dest w s)!R_REG = s!R_REG.
Proof.
  intros P. destruct (Z.eq_dec (CD w) 7) as [E|E]; [|apply dest_R, E]. unfold dest. rewrite E. cbv zeta. rewrite P. rewrite get_set. reflexivity.
Qed.
Definition blocked (s : cpu) : bool := on s allow_write && on s protect_loc || on s mem_prot.
Lemma tail_R sw w s : (stops sw w (cs_order w (checks sw w s)))!R_REG = s!R_REG.
Proof. rewrite (stops_frame sw w _ R_REG eq_refl), (cs_frame w _ R_REG eq_refl), (checks_frame sw w _ R_REG eq_refl). reflexivity. Qed.
Lemma tail_Q sw w s : (stops sw w (cs_order w (checks sw w s)))!Q_REG = s!Q_REG.
Proof. rewrite (stops_frame sw w _ Q_REG eq_refl), (cs_frame w _ Q_REG eq_refl), (checks_frame sw w _ Q_REG eq_refl). reflexivity. Qed.
Lemma up_alu ti sw w s s' (p : parts ti sw w s s') r : outside ([end_of_e_cycle] ++ L_go ++ L_ck ++ L_bus ++ L_alu) r -> (p_alu p)!r = (p_mem p)!r.
Proof.
  revert r. change (frame ([end_of_e_cycle] ++ L_go ++ L_ck ++ L_bus ++ L_alu) (p_mem p) (p_alu p)).
  set (L := [end_of_e_cycle] ++ L_go ++ L_ck ++ L_bus ++ L_alu).
  eapply frame_trans; [exact (frame_weak _ L _ _ (ck_fr_mem _ _ _ _ _ p) eq_refl)|].
  eapply frame_trans; [exact (frame_weak _ L _ _ (bus_fr _ _ _ _ _ p) eq_refl)|exact (frame_weak _ L _ _ (alu_fr _ _ _ _ _ p) eq_refl)].
Qed.
Lemma rest_R ti sw w s s' (p : parts ti sw w s s') : CD w <> 7 \/ blocked (p_mem p) = true -> s'!R_REG = (p_mem p)!R_REG.
Proof.
  intros H. rewrite <- (up_alu _ _ _ _ _ p R_REG eq_refl).
  assert (H' : CD w <> 7 \/ blocked (p_alu p) = true).
  { destruct H as [H|H]; [left; exact H|right]. unfold blocked, on in *.
    rewrite (up_alu _ _ _ _ _ p allow_write eq_refl), (up_alu _ _ _ _ _ p protect_loc eq_refl), (up_alu _ _ _ _ _ p mem_prot eq_refl). exact H. }
  revert H'. generalize (p_alu p) (pe_end p). intros u -> H'. rewrite tail_R.
  destruct H' as [H'|H']; [apply dest_R, H'|apply dest_R_prot, H'].
Qed.
Lemma rest_Q ti sw w s s' (p : parts ti sw w s s') : CD w <> 3 -> s'!Q_REG = (p_mem p)!Q_REG.
Proof.
  intros H. rewrite <- (up_alu _ _ _ _ _ p Q_REG eq_refl).
  generalize (p_alu p) (pe_end p). intros u ->. rewrite tail_Q. apply dest_Q, H.
Qed.

(** The storage part of the cycles of one storage access. *)
Lemma on0 s r : on s r = false <-> s!r = 0. Proof. unfold on. lia. Qed.
Lemma on1 s r : on s r = true <-> s!r <> 0. Proof. unfold on. lia. Qed.
Lemma mem_idle ti sw w s s' (p : parts ti sw w s s') : s!read_call = 0 -> s!dead_cycle = 0 -> CM w = 1 -> p_mem p = s.
Proof.
  intros A D C. pose proof (pe_read p) as R. pose proof (pe_mem p) as M. unfold mem_read in R. rewrite (proj2 (on0 s _) A) in R. cbn [negb orb] in R.
  injection R as R. rewrite <- R in M. unfold mem_order in M. rewrite (proj2 (on0 s _) D) in M. unfold mem_write in M. rewrite C in M. cbn in M.
  unfold read_addr in M. rewrite C in M. cbn in M. unfold read_order in M. rewrite C in M. cbn in M. congruence.
Qed.
Lemma bad_odd9 x : odd9 x -> bad x = false.
Proof.
  intros [R O]. pose proof (sweep 512 (fun x => negb (odd_bits 9 x) || negb (bad x)) ltac:(vm_compute; reflexivity) x R) as S. cbn beta in S.
  rewrite O in S. destruct (bad x); [discriminate|reflexivity].
Qed.
Lemma in_storage k x : 11 <= k <= 16 -> 0 <= x <= 2 ^ k - 1 -> bit (Z.lxor 65535 (2 ^ k - 1)) x = false.
Proof.
  intros K X. unfold bit. assert (E : Z.land (Z.lxor 65535 (2 ^ k - 1)) x = 0); [|rewrite E; reflexivity].
  assert (X' : x = Z.land x (Z.ones k)) by (rewrite Z.land_ones by lia; symmetry; apply Z.mod_small; lia).
  rewrite X', (Z.land_comm x), Z.land_assoc.
  assert (O : Z.land (Z.lxor 65535 (2 ^ k - 1)) (Z.ones k) = 0); [|rewrite O; apply Z.land_0_l].
  assert (C : k = 11 \/ k = 12 \/ k = 13 \/ k = 14 \/ k = 15 \/ k = 16) by lia.
  destruct C as [->|[->|[->|[->|[->| ->]]]]]; reflexivity.
Qed.
Lemma on_set s r q v : on (s <[r := v]>) q = if reg_beq q r then negb (v =? 0) else on s q.
Proof. unfold on. rewrite get_set. destruct (reg_beq q r); reflexivity. Qed.
Lemma on_orr s r q v : reg_beq q r = false -> on (orr r v s) q = on s q.
Proof. intros H. unfold on, orr. rewrite get_set, H. reflexivity. Qed.
Lemma tab_nth t i : 0 <= i < Z.of_nat (length t) -> tab t i = Ok (nth (Z.to_nat i) t 0).
Proof. intros H. unfold tab. replace (i <? 0) with false by lia. rewrite (nth_error_nth' t 0) by lia. reflexivity. Qed.
Lemma storage_in s : storage_ok s -> reading s -> 0 <= s!MN_REG < Z.of_nat (length (mm s)) /\ bit (Z.lxor 65535 (mem_max s)) s!MN_REG = false /\ 0 <= s!SA_REG < Z.of_nat (length (mp s)).
Proof.
  intros ((k & K & M & L) & _ & P) R. unfold reading in R. rewrite M in *. split; [lia|]. split; [apply in_storage; lia|lia].
Qed.
(** What the first cycle does to the state when it reads main storage. *)
Definition keyed (s : cpu) : Z := Z.lor (Z.land s!Q_REG 240) (Z.land (key_of s) 15).
Definition prot_test (s : cpu) : bool := negb (on s inh_stg_prot) && negb (bit s!H_REG 4) && bit (keyed s) 240 && bit (Z.lxor (Z.shiftr (keyed s) 4) (keyed s)) 15.
Lemma read_open w s s1 : mem_read w s = Ok s1 -> storage_ok s -> reading s ->
  s1!Q_REG = keyed s /\ s1!mem_prot = 0 /\ s1!protect_loc = b2z (prot_test s) /\ s1!stg_prot_req = b2z (prot_test s && (CM w =? 2)) /\ s1!allow_write = 1 /\ s1!read_call = 0 /\
  frame L_read s s1 /\ ls s1 = ls s /\ mp s1 = mp s /\ mem_max s1 = mem_max s /\
  (CM w = 2 -> mm s1 = mm s /\ s1!R_REG = s!R_REG) /\
  (CM w <> 2 -> mm s1 = upd (mm s) (Z.to_nat s!MN_REG) 0 /\ (CU w <> 1 -> s1!R_REG = u16 (nth (Z.to_nat s!MN_REG) (mm s) 0))).
Proof.
  intros H SO RD. pose proof (fr_inv _ _ _ _ (mem_read_fr w s) H) as FR.
  destruct (storage_in s SO RD) as (IM & BM & IS). destruct RD as (D & RC & ST & OM & ON & RM & RS).
  unfold mem_read in H. rewrite (proj2 (on1 s _) RC), (proj2 (on0 s _) D) in H. cbn [negb orb] in H. cbv zeta in H.
  set (a := s <[protect_loc := 0]> <[mem_prot := 0]> <[stg_prot_req := 0]>) in H.
  assert (G : forall r, outside [protect_loc; mem_prot; stg_prot_req] r -> a!r = s!r).
  { intros r O. unfold a. split_out O. gs. known. reflexivity. }
  assert (B : bad a!M_REG || bad a!N_REG = false) by (rewrite (G M_REG eq_refl), (G N_REG eq_refl), !bad_odd9 by assumption; reflexivity).
  rewrite B in H. rewrite (G store eq_refl), ST, (G MN_REG eq_refl) in H. change (mem_max a) with (mem_max s) in H. rewrite BM in H. cbn [andb Z.eqb Pos.eqb MAIN] in H.
  assert (MP0 : on a mem_prot = false) by (unfold a, on; gs; reflexivity). rewrite (G store eq_refl), ST, MP0 in H. cbn [andb negb Z.eqb Pos.eqb MAIN] in H.
  change (mp a) with (mp s) in H. rewrite (G SA_REG eq_refl), (tab_nth (mp s)) in H by exact IS. fold (key_of s) in H. cbn [bind] in H. rewrite (G Q_REG eq_refl) in H. fold (keyed s) in H.
  set (b := a <[Q_REG := keyed s]>) in H.
  assert (Gb : forall r, outside [protect_loc; mem_prot; stg_prot_req; Q_REG] r -> b!r = s!r).
  { intros r O. unfold b, a. split_out O. gs. known. reflexivity. }
  assert (T : negb (on b inh_stg_prot) && negb (bit b!H_REG 4) && bit b!Q_REG 240 && bit (Z.lxor (Z.shiftr b!Q_REG 4) b!Q_REG) 15 = prot_test s).
  { unfold prot_test. rewrite (Gb H_REG eq_refl). unfold on. rewrite (Gb inh_stg_prot eq_refl). unfold b. rewrite get_set. reflexivity. }
  rewrite T in H.
  set (c := if prot_test s then _ else b) in H.
  assert (Gc : frame [protect_loc; mem_prot; stg_prot_req; Q_REG] s c /\ sm s c /\ c!Q_REG = keyed s /\ c!mem_prot = 0 /\ c!protect_loc = b2z (prot_test s) /\ c!stg_prot_req = b2z (prot_test s && (CM w =? 2))).
  { unfold c. destruct (prot_test s); [destruct (CM w =? 2)|];
      (split; [intros r O; unfold b, a; split_out O; gs; known; reflexivity|split; [repeat split|repeat split; unfold b, a; gs; reflexivity]]). }
  clearbody c. destruct Gc as (Gc & (Sm & Sl & Sp & Sx) & Q & MP & PL & SR).
  rewrite (Gc store eq_refl), ST in H. cbn [Z.eqb Pos.eqb MAIN MPX bind] in H.
  rewrite (proj2 (on0 c _) MP) in H. cbn [negb] in H. rewrite andb_true_r in H.
  rewrite (Gc store eq_refl), ST in H. cbn [Z.eqb Pos.eqb MAIN] in H. rewrite (Gc MN_REG eq_refl) in H.
  destruct (Z.eqb_spec (CM w) 2) as [C|C]; cbn [negb bind] in H.
  - injection H as <-. repeat (refine (conj _ _); [first [exact FR | gs; cbn [reg_beq]; first [assumption|reflexivity]|cbn [mm ls mp mem_max set]; congruence]|]).
    split; [|contradiction]. intros _. split; [exact Sm|]. gs. cbn [reg_beq]. apply (Gc R_REG eq_refl).
  - rewrite Sm, (tab_nth (mm s)), (put_ok (mm s)) in H by exact IM. cbn [bind] in H. injection H as <-.
    destruct (Z.eqb_spec (CU w) 1) as [U|U].
    + repeat (refine (conj _ _); [first [exact FR|gs; cbn [reg_beq]; first [assumption|reflexivity]|cbn [mm ls mp mem_max set set_mm]; congruence]|]).
      intros _. split; [reflexivity|congruence].
    + repeat (refine (conj _ _); [first [exact FR|gs; cbn [reg_beq]; first [assumption|reflexivity]|cbn [mm ls mp mem_max set set_mm]; congruence]|]).
      intros _. split; [reflexivity|intros _; gs; reflexivity].
Qed.

Lemma bit240 x : bit x 240 = negb (hi x =? 0).
Proof. unfold bit. rewrite land240. pose proof (hi_range x). lia. Qed.
Lemma bit_xor15 a b : bit (Z.lxor a b) 15 = negb (lo a =? lo b).
Proof.
  unfold bit. f_equal. unfold lo. rewrite <- !land_ones4.
  assert (E : Z.land (Z.lxor a b) 15 = Z.lxor (Z.land a 15) (Z.land b 15)).
  { apply Z.bits_inj'. intros n N. rewrite Z.land_spec, !Z.lxor_spec, !Z.land_spec. destruct (Z.testbit a n), (Z.testbit b n), (Z.testbit 15 n); reflexivity. }
  rewrite E. destruct (Z.eqb_spec (Z.land a 15) (Z.land b 15)) as [->|N]; [rewrite Z.lxor_nilpotent; reflexivity|].
  apply Z.eqb_neq. intros Q. apply N. apply Z.lxor_eq, Q.
Qed.
Lemma keyed_split s : keyed s = 16 * hi s!Q_REG + lo (key_of s).
Proof. unfold keyed. rewrite land240, land_ones4. rewrite Z.lor_comm, lor_split; [reflexivity|apply lo_range|apply hi_range]. Qed.
Lemma hi_keyed s : hi (keyed s) = hi s!Q_REG.
Proof.
  rewrite keyed_split. pose proof (hi_range s!Q_REG). pose proof (lo_range (key_of s)). unfold hi at 1. rewrite Z.mul_comm, Z.div_add_l by lia.
  rewrite (Z.div_small (lo _)), Z.add_0_r by lia. apply Z.mod_small. lia.
Qed.
Lemma lo_keyed s : lo (keyed s) = lo (key_of s).
Proof.
  rewrite keyed_split. pose proof (lo_range (key_of s)). unfold lo at 1. rewrite Z.add_comm, Z.mul_comm, Z.mod_add by lia. apply Z.mod_small. lia.
Qed.
Lemma protected_test s : protected s <-> prot_test s = true.
Proof.
  unfold protected, prot_test. rewrite bit240, bit_xor15, shr4. change (lo (keyed s / 16)) with (hi (keyed s)). rewrite lo_keyed, hi_keyed.
  rewrite (bit_i _ 5 4) by (reflexivity || lia). rewrite !andb_true_iff, !negb_true_iff, on0, !Z.eqb_neq. intuition congruence.
Qed.

Lemma order_idle w s : s!dead_cycle = 0 -> CM w = 1 -> mem_order w s = Ok s.
Proof.
  intros D C. unfold mem_order. rewrite (proj2 (on0 s _) D). unfold mem_write. rewrite C. cbn [Z.eqb Pos.eqb andb orb bind]. unfold read_addr. rewrite C. cbn [Z.eqb Pos.eqb bind].
  unfold read_order. rewrite C. reflexivity.
Qed.
Lemma order_stopped w s : s!dead_cycle = 0 -> CM w = 2 -> s!stg_prot_req <> 0 -> mem_order w s = Ok s.
Proof.
  intros D C P. unfold mem_order. rewrite (proj2 (on0 s _) D). unfold mem_write. rewrite C, (proj2 (on1 s _) P). cbn [Z.eqb Pos.eqb andb orb negb bind].
  unfold read_addr. rewrite C. cbn [Z.eqb Pos.eqb bind]. unfold read_order. rewrite C. reflexivity.
Qed.
Lemma order_write w s : s!dead_cycle = 0 -> CM w = 0 -> CU w <> 1 -> s!allow_write <> 0 -> s!store = MAIN ->
  0 <= s!MN_REG < Z.of_nat (length (mm s)) -> 0 <= s!SA_REG < Z.of_nat (length (mp s)) ->
  mem_order w s = Ok (set_mp (upd (mp s) (Z.to_nat s!SA_REG) (Z.land s!Q_REG 15)) (set_mm (upd (mm s) (Z.to_nat s!MN_REG) s!R_REG) s) <[allow_write := 0]> <[read_call := 0]> <[inh_stg_prot := 0]>).
Proof.
  intros D C U A S M K. unfold mem_order. rewrite (proj2 (on0 s _) D). unfold mem_write. rewrite C, (proj2 (on1 s _) A), S. cbn [Z.eqb Pos.eqb andb orb negb bind MAIN].
  replace (CU w =? 1) with false by lia. rewrite !put_ok by assumption. cbn [bind].
  unfold read_addr. rewrite C. cbn [Z.eqb Pos.eqb bind]. unfold read_order. rewrite C. reflexivity.
Qed.
Lemma dest_spr w s : s!stg_prot_req = 1 -> (dest w s)!stg_prot_req = 1.
Proof. intros H. unfold dest. cbv zeta. cases; gs; cbn [reg_beq]; congruence. Qed.
(** C63: a store order in the cycle that would read a protected byte. *)
Lemma store_stopped ti sw w s s' : micro ti sw w s = Ok s' -> storage_ok s -> reading s -> protected s -> CM w = 2 ->
  same_storage s s' /\ s'!stg_prot_req = 1.
Proof.
  intros H SO RD PR C. assert (D : s!dead_cycle = 0) by (unfold reading in RD; tauto). pose proof (micro_parts _ _ _ _ _ H D) as p.
  destruct (read_open _ _ _ (pe_read p) SO RD) as (Q & MP & PL & SR & AW & RC & FR & L & K & X & S2 & _). destruct (S2 C) as [M _].
  apply protected_test in PR. rewrite PR, C in SR. cbn in SR.
  assert (E : p_mem p = p_read p).
  { pose proof (pe_mem p) as E. rewrite order_stopped in E; [congruence| |exact C|lia]. rewrite (FR dead_cycle eq_refl). exact D. }
  destruct (post_sm _ _ _ _ _ p) as (Pm & Pl & Pp & Px). rewrite E in *. split; [repeat split; congruence|].
  assert (A : (p_alu p)!stg_prot_req = 1) by (rewrite (up_alu _ _ _ _ _ p stg_prot_req eq_refl), E; exact SR).
  revert A. generalize (p_alu p) (pe_end p). intros u -> A.
  rewrite (stops_frame sw w _ stg_prot_req eq_refl), (cs_frame w _ stg_prot_req eq_refl), (checks_frame sw w _ stg_prot_req eq_refl). apply dest_spr, A.
Qed.

(** Between the read and the write of one access. *)
Record opened (s t : cpu) : Prop := mkOpen {
  o_dead : t!dead_cycle = 0; o_call : t!read_call = 0; o_aw : t!allow_write = 1; o_store : t!store = MAIN; o_mn : t!MN_REG = s!MN_REG; o_sa : t!SA_REG = s!SA_REG;
  o_mm : mm t = upd (mm s) (Z.to_nat s!MN_REG) 0; o_ls : ls t = ls s; o_mp : mp t = mp s; o_q : t!Q_REG = keyed s;
  o_prot : t!mem_prot = 0; o_loc : t!protect_loc = b2z (prot_test s); o_r : t!R_REG = u16 (nth (Z.to_nat s!MN_REG) (mm s) 0) }.
Lemma open_first ti sw w s t : micro ti sw w s = Ok t -> storage_ok s -> reading s -> CM w = 1 -> CU w <> 1 -> CD w <> 3 -> CD w <> 7 \/ protected s -> opened s t.
Proof.
  intros H SO RD C U C3 C7. assert (D : s!dead_cycle = 0) by (unfold reading in RD; tauto). assert (ST : s!store = MAIN) by (unfold reading in RD; tauto).
  pose proof (micro_parts _ _ _ _ _ H D) as p.
  destruct (read_open _ _ _ (pe_read p) SO RD) as (Q & MP & PL & SR & AW & RC & FR & L & K & X & _ & S1). destruct (S1 ltac:(lia)) as [M R]. specialize (R U).
  assert (E : p_mem p = p_read p).
  { pose proof (pe_mem p) as E. rewrite order_idle in E; [congruence| |exact C]. rewrite (FR dead_cycle eq_refl). exact D. }
  destruct (post_sm _ _ _ _ _ p) as (Pm & Pl & Pp & Px). pose proof (rest_fr _ _ _ _ _ p) as F.
  assert (B : CD w <> 7 \/ blocked (p_mem p) = true).
  { destruct C7 as [C7|C7]; [left; exact C7|right]. unfold blocked, on. rewrite E, AW, PL, (proj1 (protected_test s) C7). reflexivity. }
  pose proof (rest_R _ _ _ _ _ p B) as R'. pose proof (rest_Q _ _ _ _ _ p C3) as Q'. rewrite E in *.
  split; try congruence.
  - rewrite (F dead_cycle eq_refl), (FR dead_cycle eq_refl). exact D.
  - rewrite (F read_call eq_refl). exact RC.
  - rewrite (F allow_write eq_refl). exact AW.
  - rewrite (F store eq_refl), (FR store eq_refl). exact ST.
  - rewrite (F MN_REG eq_refl), (FR MN_REG eq_refl). reflexivity.
  - rewrite (F SA_REG eq_refl), (FR SA_REG eq_refl). reflexivity.
  - rewrite (F mem_prot eq_refl). exact MP.
  - rewrite (F protect_loc eq_refl). exact PL.
Qed.
Lemma open_next ti sw w s t t' : opened s t -> micro ti sw w t = Ok t' -> CM w = 1 -> CD w <> 3 -> CD w <> 7 \/ protected s -> opened s t'.
Proof.
  intros [D RC AW ST MN SA M L K Q MP PL R] H C C3 C7. pose proof (micro_parts _ _ _ _ _ H D) as p.
  pose proof (mem_idle _ _ _ _ _ p RC D C) as E.
  destruct (post_sm _ _ _ _ _ p) as (Pm & Pl & Pp & Px). pose proof (rest_fr _ _ _ _ _ p) as F.
  assert (B : CD w <> 7 \/ blocked (p_mem p) = true).
  { destruct C7 as [C7|C7]; [left; exact C7|right]. unfold blocked, on. rewrite E, AW, PL, (proj1 (protected_test s) C7). reflexivity. }
  pose proof (rest_R _ _ _ _ _ p B) as R'. pose proof (rest_Q _ _ _ _ _ p C3) as Q'. rewrite E in *.
  split; try congruence.
  - rewrite (F dead_cycle eq_refl). exact D.
  - rewrite (F read_call eq_refl). exact RC.
  - rewrite (F allow_write eq_refl). exact AW.
  - rewrite (F store eq_refl). exact ST.
  - rewrite (F MN_REG eq_refl). exact MN.
  - rewrite (F SA_REG eq_refl). exact SA.
  - rewrite (F mem_prot eq_refl). exact MP.
  - rewrite (F protect_loc eq_refl). exact PL.
Qed.
Lemma upd_upd (l : list Z) i x y : upd (upd l i x) i y = upd l i y.
Proof. revert i. induction l as [|a l IH]; intros [|i]; cbn; try reflexivity. f_equal. apply IH. Qed.
Lemma upd_id (l : list Z) i d : (i < length l)%nat -> upd l i (nth i l d) = l.
Proof. revert i. induction l as [|a l IH]; intros [|i] H; cbn in *; try lia; try reflexivity. f_equal. apply IH. lia. Qed.
Lemma open_last ti sw w s t t' : storage_ok s -> reading s -> opened s t -> micro ti sw w t = Ok t' -> CM w = 0 -> CU w <> 1 ->
  mm t' = upd (mm s) (Z.to_nat s!MN_REG) (u16 (nth (Z.to_nat s!MN_REG) (mm s) 0)) /\ ls t' = ls s /\ mp t' = upd (mp s) (Z.to_nat s!SA_REG) (lo (key_of s)) /\ t'!allow_write = 0 /\ t'!read_call = 0.
Proof.
  intros SO RD [D RC AW ST MN SA M L K Q MP PL R] H C U. destruct (storage_in s SO RD) as (IM & _ & IS).
  pose proof (micro_parts _ _ _ _ _ H D) as p. pose proof (pe_read p) as E1. unfold mem_read in E1. rewrite (proj2 (on0 t _) RC) in E1. cbn [negb orb] in E1.
  injection E1 as E1. pose proof (pe_mem p) as E2. rewrite <- E1, order_write in E2; try assumption; try lia;
    [|rewrite M, upd_length, MN; exact IM|rewrite K, SA; exact IS].
  injection E2 as E2. destruct (post_sm _ _ _ _ _ p) as (Pm & Pl & Pp & Px). pose proof (rest_fr _ _ _ _ _ p) as F. rewrite <- E2 in *.
  cbn [mm ls mp set set_mm set_mp] in Pm, Pl, Pp. rewrite Pm, Pl, Pp, M, MN, R, upd_upd, L, K, SA, Q. rewrite land_ones4. fold (lo (keyed s)). rewrite lo_keyed.
  repeat split; [rewrite (F allow_write eq_refl)|rewrite (F read_call eq_refl)]; gs; reflexivity.
Qed.
(** A first cycle that reads and writes. *)
Lemma open_one ti sw w s t : storage_ok s -> reading s -> micro ti sw w s = Ok t -> CM w = 0 -> CU w <> 1 ->
  mm t = upd (mm s) (Z.to_nat s!MN_REG) (u16 (nth (Z.to_nat s!MN_REG) (mm s) 0)) /\ ls t = ls s /\ mp t = upd (mp s) (Z.to_nat s!SA_REG) (lo (key_of s)) /\ t!allow_write = 0 /\ t!read_call = 0.
Proof.
  intros SO RD H C U. destruct (storage_in s SO RD) as (IM & _ & IS). assert (D : s!dead_cycle = 0) by (unfold reading in RD; tauto).
  assert (ST : s!store = MAIN) by (unfold reading in RD; tauto). pose proof (micro_parts _ _ _ _ _ H D) as p.
  destruct (read_open _ _ _ (pe_read p) SO RD) as (Q & MP & PL & SR & AW & RC & FR & L & K & X & _ & S1). destruct (S1 ltac:(lia)) as [M R]. specialize (R U).
  pose proof (pe_mem p) as E2. rewrite order_write in E2; try assumption;
    [|rewrite (FR dead_cycle eq_refl); exact D|lia|rewrite (FR store eq_refl); exact ST|rewrite M, upd_length, (FR MN_REG eq_refl); exact IM|rewrite K, (FR SA_REG eq_refl); exact IS].
  injection E2 as E2. destruct (post_sm _ _ _ _ _ p) as (Pm & Pl & Pp & Px). pose proof (rest_fr _ _ _ _ _ p) as F. rewrite <- E2 in *.
  cbn [mm ls mp set set_mm set_mp] in Pm, Pl, Pp. rewrite Pm, Pl, Pp, M, (FR MN_REG eq_refl), R, upd_upd, L, K, (FR SA_REG eq_refl), Q. rewrite land_ones4. fold (lo (keyed s)). rewrite lo_keyed.
  repeat split; [rewrite (F allow_write eq_refl)|rewrite (F read_call eq_refl)]; gs; reflexivity.
Qed.
(** An access that reads a byte, does not change R (or may not, the byte being protected), and writes. *)
Definition keeps (s : cpu) (e : Z * switches * ros) : Prop := let '(_, w) := e in CM w = 1 /\ CU w <> 1 /\ CD w <> 3 /\ (CD w <> 7 \/ protected s).
Lemma micros_app a b s : micros (a ++ b) s = (let* s := micros a s in micros b s).
Proof. revert s. induction a as [|((ti, sw), w) a IH]; intros s; cbn [app micros bind]; [reflexivity|]. destruct (micro ti sw w s); cbn [bind]; auto. Qed.
Lemma open_all s ws : Forall (keeps s) ws -> forall t t', opened s t -> micros ws t = Ok t' -> opened s t'.
Proof.
  induction 1 as [|((ti, sw), w) ws K _ IH]; intros t t' O H; cbn [micros] in H; [congruence|].
  destruct (micro ti sw w t) as [u| |] eqn:E; cbn [bind] in H; try discriminate. destruct K as (A & B & C & D'). eapply IH; [|exact H]. eapply open_next; eauto.
Qed.
Lemma regenerate ti sw w ws s s' : micros (ws ++ [(ti, sw, w)]) s = Ok s' -> storage_ok s -> reading s -> Forall (keeps s) ws -> CM w = 0 -> CU w <> 1 ->
  0 <= nth (Z.to_nat s!MN_REG) (mm s) 0 < 65536 -> 0 <= key_of s < 16 ->
  same_storage s s' /\ s'!allow_write = 0 /\ s'!read_call = 0.
Proof.
  intros H SO RD F C U V KV. destruct (storage_in s SO RD) as (IM & _ & IS).
  assert (A : mm s' = upd (mm s) (Z.to_nat s!MN_REG) (u16 (nth (Z.to_nat s!MN_REG) (mm s) 0)) /\ ls s' = ls s /\ mp s' = upd (mp s) (Z.to_nat s!SA_REG) (lo (key_of s)) /\ s'!allow_write = 0 /\ s'!read_call = 0).
  { rewrite micros_app in H. destruct F as [|((ti0, sw0), w0) ws (K1 & K2 & K3 & K4) F].
    - cbn [micros bind] in H. destruct (micro ti sw w s) as [u| |] eqn:E; cbn [bind] in H; try discriminate. injection H as <-. eapply open_one; eauto.
    - cbn [micros] in H. destruct (micro ti0 sw0 w0 s) as [u| |] eqn:E0; cbn [bind] in H; try discriminate.
      destruct (micros ws u) as [v| |] eqn:E1; cbn [bind] in H; try discriminate.
      destruct (micro ti sw w v) as [x| |] eqn:E; cbn [bind] in H; try discriminate. injection H as <-.
      eapply open_last; eauto. eapply open_all; eauto. eapply open_first; eauto. }
  destruct A as (A & B & D & E & G). assert (u16 (nth (Z.to_nat s!MN_REG) (mm s) 0) = nth (Z.to_nat s!MN_REG) (mm s) 0) as UV.
  { unfold u16. rewrite ?Z.land_ones by lia. apply Z.mod_small. lia. }
  rewrite UV, upd_id in A by lia. unfold lo in D. rewrite Z.mod_small in D by lia. unfold key_of in D. rewrite upd_id in D by lia.
  repeat split; assumption.
Qed.

(** A read order for an address that is not installed. *)
Lemma beyond_storage k x : 11 <= k <= 16 -> 2 ^ k <= x < 65536 -> bit (Z.lxor 65535 (2 ^ k - 1)) x = true.
Proof.
  intros K X. unfold bit. destruct (Z.eqb_spec (Z.land (Z.lxor 65535 (2 ^ k - 1)) x) 0) as [E|E]; [exfalso|reflexivity].
  assert (M : Z.lor (Z.lxor 65535 (2 ^ k - 1)) (2 ^ k - 1) = 65535).
  { assert (C : k = 11 \/ k = 12 \/ k = 13 \/ k = 14 \/ k = 15 \/ k = 16) by lia. destruct C as [->|[->|[->|[->|[->| ->]]]]]; reflexivity. }
  assert (A : x = Z.land 65535 x) by (rewrite Z.land_comm; change 65535 with (Z.ones 16); rewrite Z.land_ones by lia; symmetry; apply Z.mod_small; change (2 ^ 16) with 65536; lia).
  rewrite <- M in A. assert (D : Z.land (Z.lor (Z.lxor 65535 (2 ^ k - 1)) (2 ^ k - 1)) x = Z.lor (Z.land (Z.lxor 65535 (2 ^ k - 1)) x) (Z.land (2 ^ k - 1) x)).
  { apply Z.bits_inj'. intros n N. rewrite Z.land_spec, !Z.lor_spec, !Z.land_spec. destruct (Z.testbit x n); [rewrite !andb_true_r|rewrite !andb_false_r]; reflexivity. }
  rewrite D, E, Z.lor_0_l, Z.land_comm in A. pose proof (land_lt x (2 ^ k - 1) ltac:(lia)). lia.
Qed.
Lemma read_beyond ti sw w s s' : micro ti sw w s = Ok s' -> storage_ok s -> s!dead_cycle = 0 -> s!read_call <> 0 -> s!store = MAIN -> mem_max s < s!MN_REG < 65536 -> CM w = 1 ->
  same_storage s s' /\ s'!R_REG = s!R_REG.
Proof.
  intros H ((k & K & MX & _) & _) D RC ST MN C. pose proof (micro_parts _ _ _ _ _ H D) as p. pose proof (pe_read p) as E.
  assert (BM : bit (Z.lxor 65535 (mem_max s)) s!MN_REG = true) by (rewrite MX in *; apply beyond_storage; lia).
  assert (X : sm s (p_read p) /\ (p_read p)!R_REG = s!R_REG /\ (p_read p)!mem_prot = 1 /\ (p_read p)!dead_cycle = 0).
  { unfold mem_read in E. rewrite (proj2 (on1 s _) RC), (proj2 (on0 s _) D) in E. cbn [negb orb] in E. cbv zeta in E.
    set (a := s <[protect_loc := 0]> <[mem_prot := 0]> <[stg_prot_req := 0]>) in E.
    set (b := if bad a!M_REG || bad a!N_REG then _ else a) in E.
    assert (B : frame [protect_loc; mem_prot; stg_prot_req; MC_REG] s b /\ sm s b).
    { unfold b, a. step_if; (split; [intros r O; split_out O; gs; known; reflexivity|repeat split]). }
    clearbody b. clear a. destruct B as (F & S1 & S2 & S3 & S4). rewrite (F store eq_refl), ST, (F MN_REG eq_refl), S4, BM in E. cbn [andb Z.eqb Pos.eqb MAIN] in E.
    set (c := b <[mem_prot := 1]>) in E. assert (CP : on c mem_prot = true) by (unfold c, on; gs; reflexivity).
    assert (CS : c!store = 1) by (unfold c; gs; cbn [reg_beq]; rewrite (F store eq_refl); exact ST). rewrite CS, CP in E. cbn [negb andb Z.eqb Pos.eqb MAIN bind] in E.
    rewrite CS in E. cbn [Z.eqb Pos.eqb MPX bind] in E. rewrite CP, andb_false_r in E. cbn [bind] in E. injection E as E. rewrite <- E.
    split; [repeat split; assumption|]. gs. cbn [reg_beq]. split; [unfold c; gs; cbn [reg_beq]; apply (F R_REG eq_refl)|]. split; [unfold c; gs; reflexivity|].
    unfold c. gs. cbn [reg_beq]. rewrite (F dead_cycle eq_refl). exact D. }
  destruct X as ((M1 & M2 & M3 & M4) & R & MP & DC).
  assert (EM : p_mem p = p_read p) by (pose proof (pe_mem p) as EM; rewrite order_idle in EM by assumption; congruence).
  destruct (post_sm _ _ _ _ _ p) as (P1 & P2 & P3 & _). rewrite EM in *. split; [repeat split; congruence|].
  assert (BL : blocked (p_mem p) = true) by (rewrite EM; unfold blocked; rewrite (proj2 (on1 _ mem_prot)) by lia; apply orb_true_r).
  rewrite (rest_R _ _ _ _ _ p (or_intror BL)), EM. exact R.
Qed.
