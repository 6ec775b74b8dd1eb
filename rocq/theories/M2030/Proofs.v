(** The 2030: the registers each part of a cycle can change. *)
From Verif Require Export M2030.Model.

Lemma get_set x r v s : (s <[r := v]>)!x = if reg_beq x r then v else s!x.
Proof. reflexivity. Qed.
Lemma get_mm x m s : (set_mm m s)!x = s!x. Proof. reflexivity. Qed.
Lemma get_ls x m s : (set_ls m s)!x = s!x. Proof. reflexivity. Qed.
Lemma get_mp x m s : (set_mp m s)!x = s!x. Proof. reflexivity. Qed.
Lemma mm_set r v s : mm (s <[r := v]>) = mm s. Proof. reflexivity. Qed.
Lemma ls_set r v s : ls (s <[r := v]>) = ls s. Proof. reflexivity. Qed.
Lemma mp_set r v s : mp (s <[r := v]>) = mp s. Proof. reflexivity. Qed.
Lemma mx_set r v s : mem_max (s <[r := v]>) = mem_max s. Proof. reflexivity. Qed.
Lemma get_orr x r m s : (orr r m s)!x = if reg_beq x r then Z.lor s!r m else s!x. Proof. reflexivity. Qed.
Lemma get_clr x r m s : (clr r m s)!x = if reg_beq x r then Z.land s!r (Z.lnot m) else s!x. Proof. reflexivity. Qed.

Lemma if_get (b : bool) x s t : (if b then s else t)!x = if b then s!x else t!x. Proof. destruct b; reflexivity. Qed.
Lemma if_mm (b : bool) s t : mm (if b then s else t) = if b then mm s else mm t. Proof. destruct b; reflexivity. Qed.

Definition outside (L : list reg) (r : reg) : Prop := existsb (reg_beq r) L = false.
Definition frame (L : list reg) (s s' : cpu) : Prop := forall r, outside L r -> s'!r = s!r.

Ltac split_out H :=
  unfold outside in H; cbn [existsb] in H;
  repeat match type of H with (_ || _)%bool = false => let H1 := fresh in apply orb_false_elim in H as [H1 H] end.
Ltac gs := repeat (rewrite get_set || rewrite get_mm || rewrite get_ls || rewrite get_mp || rewrite get_orr || rewrite get_clr || rewrite if_get).
Ltac known := repeat match goal with H : reg_beq ?a ?b = false |- context [reg_beq ?a ?b] => rewrite H end.
Ltac step_if := match goal with |- context [if ?b then _ else _] => destruct b end.

Definition fr (L : list reg) (s : cpu) (x : res cpu) : Prop := match x with Ok s' => frame L s s' | _ => True end.
Definition inside (L : list reg) (r : reg) : Prop := existsb (reg_beq r) L = true.

Lemma reg_beq_true x y : reg_beq x y = true -> x = y.
Proof. apply internal_reg_dec_bl. Qed.
Lemma frame_refl L s : frame L s s. Proof. intros r _. reflexivity. Qed.
Lemma frame_trans L s t u : frame L s t -> frame L t u -> frame L s u.
Proof. intros A B r H. rewrite (B r H). apply A, H. Qed.
Lemma frame_weak L L' s t : frame L s t -> forallb (fun r => existsb (reg_beq r) L') L = true -> frame L' s t.
Proof.
  intros A B r H. apply A. unfold outside in *. apply Bool.not_true_iff_false. intros C. apply existsb_exists in C as (x & I & E).
  apply reg_beq_true in E. subst. rewrite forallb_forall in B. specialize (B x I). congruence.
Qed.
Lemma frame_set L s0 s r v : inside L r -> frame L s0 s -> frame L s0 (s <[r := v]>).
Proof.
  intros I A x H. rewrite get_set. destruct (reg_beq x r) eqn:E; [|apply A, H]. apply reg_beq_true in E. subst.
  unfold inside, outside in *. congruence.
Qed.
Lemma frame_orr L s0 s r v : inside L r -> frame L s0 s -> frame L s0 (orr r v s).
Proof. intros. apply frame_set; assumption. Qed.
Lemma frame_clr L s0 s r v : inside L r -> frame L s0 s -> frame L s0 (clr r v s).
Proof. intros. apply frame_set; assumption. Qed.
Lemma frame_mm L s0 s m : frame L s0 s -> frame L s0 (set_mm m s). Proof. intros A x H. apply A, H. Qed.
Lemma frame_ls L s0 s m : frame L s0 s -> frame L s0 (set_ls m s). Proof. intros A x H. apply A, H. Qed.
Lemma frame_mp L s0 s m : frame L s0 s -> frame L s0 (set_mp m s). Proof. intros A x H. apply A, H. Qed.
Lemma frame_let L s0 e (k : cpu -> cpu) : frame L s0 e -> (forall s, frame L s0 s -> frame L s0 (k s)) -> frame L s0 (let s := e in k s).
Proof. intros A B. apply B, A. Qed.
Lemma fr_let L s0 e (k : cpu -> res cpu) : frame L s0 e -> (forall s, frame L s0 s -> fr L s0 (k s)) -> fr L s0 (let s := e in k s).
Proof. intros A B. apply B, A. Qed.
Lemma fr_ok L s0 s : frame L s0 s -> fr L s0 (Ok s). Proof. auto. Qed.
Lemma fr_ub L s0 : fr L s0 UB. Proof. exact I. Qed.
Lemma fr_bind L s0 e (k : cpu -> res cpu) : fr L s0 e -> (forall s, frame L s0 s -> fr L s0 (k s)) -> fr L s0 (bind e k).
Proof. destruct e as [s| |]; cbn; auto. Qed.
Lemma fr_val {A} L s0 (e : res A) (k : A -> res cpu) : (forall v, fr L s0 (k v)) -> fr L s0 (bind e k).
Proof. destruct e as [s| |]; cbn; auto. Qed.
Lemma fr_inv L s0 e s : fr L s0 e -> e = Ok s -> frame L s0 s.
Proof. intros A ->. exact A. Qed.

Lemma fr_weak L L' s0 e s : fr L s0 e -> e = Ok s -> forallb (fun r => existsb (reg_beq r) L') L = true -> frame L' s0 s.
Proof. intros A B C. eapply frame_weak; [exact (fr_inv _ _ _ _ A B)|exact C]. Qed.

Ltac insi := repeat match goal with |- inside _ (_ ?b) => is_var b; destruct b | |- inside _ (_ (?f ?s)) => destruct (f s) end; reflexivity.
Ltac frs :=
  repeat first
  [ assumption
  | lazymatch goal with
    | |- forall _, _ => intro
    | |- inside _ (if ?b then _ else _) => destruct b
    | |- inside _ _ => insi
    | |- frame _ ?s ?s => apply frame_refl
    | |- frame _ _ (set _ _ _) => apply frame_set
    | |- frame _ _ (orr _ _ _) => apply frame_orr
    | |- frame _ _ (clr _ _ _) => apply frame_clr
    | |- frame _ _ (set_mm _ _) => apply frame_mm
    | |- frame _ _ (set_ls _ _) => apply frame_ls
    | |- frame _ _ (set_mp _ _) => apply frame_mp
    | |- frame ?L ?s0 (let s := ?e in @?k s) =>
        lazymatch type of e with cpu => apply (frame_let L s0 e k); cbv beta | _ => cbv zeta end
    | |- fr ?L ?s0 (let s := ?e in @?k s) =>
        lazymatch type of e with cpu => apply (fr_let L s0 e k); cbv beta | _ => cbv zeta end
    | |- fr _ _ (Ok _) => apply fr_ok
    | |- fr _ _ UB => exact I
    | |- fr ?L ?s0 (bind ?e ?k) =>
        lazymatch type of e with res cpu => apply (fr_bind L s0 e k) | _ => apply fr_val end
    | |- fr _ _ (match ?x with _ => _ end) => destruct x
    | |- frame _ _ (match ?x with _ => _ end) => destruct x
    end ].

Definition L_read := [protect_loc; mem_prot; stg_prot_req; MC_REG; Q_REG; R_REG; GR false; GR true; allow_write; read_call].
Lemma mem_read_fr w s : fr L_read s (mem_read w s).
Proof. unfold mem_read. frs. Qed.
Definition L_write := [allow_write; read_call; inh_stg_prot].
Lemma mem_write_fr w s : fr L_write s (mem_write w s).
Proof. unfold mem_write. frs. Qed.
Definition L_addr := [M_REG; N_REG; inh_stg_prot].
Lemma read_addr_fr w s : fr L_addr s (read_addr w s).
Proof. unfold read_addr. frs. Qed.
Definition L_order := [store; mem_wrap_req; M_REG; SA_REG; read_call; MN_REG; MC_REG; mem_prot].
Lemma read_order_fr w s : fr L_order s (read_order w s).
Proof. unfold read_order. frs. Qed.
Definition L_dead := [GWX; SEL_X6X7; sel_chain_pulse; ch_sel; sel_ros_req; priority_bus; FWX; MPX_X6X7; FT; MPX_TAGS; mpx_share_pulse; dead_cycle; WX].
Lemma dead_frame s n : frame L_dead s (dead s n).
Proof. unfold dead. frs. Qed.
Definition L_go := [sel_ros_rest; mpx_ros_rest; WX].
Lemma go_frame s n : frame L_go s (go s n).
Proof. unfold go. destruct (on s sel_ros_rest); cbn [fst snd]; step_if; frs. Qed.
Definition L_ck := [i_wrap_cpu; u_wrap_cpu; alu_chk; even_parity; MC_REG; wrap_buf; FT; load_mode; F_REG].
Lemma ck_frame w s : frame L_ck s (ck_order w s).
Proof. unfold ck_order. frs. Qed.
Definition L_b := [Bbus; MC_REG].
Lemma b_bus_fr sw w s : fr L_b s (b_bus sw w s).
Proof. unfold b_bus. frs. Qed.
Definition L_a := [Abus; allow_a_reg_chk; suppr_a_reg_chk; proc_stop_loop_active; C_REG; timer_update; TI; GR false; GR true; GE false; GE true; MC_REG].
Lemma a_gate_fr ti sw w s : fr L_a s (a_gate ti sw w s).
Proof. unfold a_gate, a_plain. frs. Qed.
Lemma a_bus_fr ti sw w s : fr L_a s (a_bus ti sw w s).
Proof. unfold a_bus. apply fr_bind; [apply a_gate_fr|frs]. Qed.
Definition L_alu := [cf_stop; tc; ASCII; suppr_half_trap_lch; wait; carries; Alu_out].
Lemma alu_step_fr sw w s : fr L_alu s (alu_step sw w s).
Proof. unfold alu_step. frs. Qed.
Definition L_dest := [TE; JE; Q_REG; TA; sel_ros_rest; sel_ros_req; ch_sel; WX; mpx_ros_rest; H_REG; priority_lch; S_REG; stg_prot_req; R_REG; MC_REG;
  D_REG; L_REG; G_REG; T_REG; V_REG; U_REG; u_wrap_mpx; u_wrap_cpu; J_REG; I_REG; i_wrap_cpu].
Lemma dest_frame w s : frame L_dest s (dest w s).
Proof. unfold dest. frs. Qed.
Definition L_checks := [S_REG; MC_REG; any_mach_chk; first_mach_chk_req].
Lemma checks_frame sw w s : frame L_checks s (checks sw w s).
Proof. unfold checks, save_carry. frs. Qed.
Lemma checks_frame' sw w s : frame [MC_REG; any_mach_chk; first_mach_chk_req] (save_carry w s) (checks sw w s).
Proof. unfold checks. frs. Qed.
Definition L_cs := [S_REG; MASK; XX_REG; FT; mpx_supr_out_lch; MPX_TAGS; MPX_TI; mpx_start_sel; O_REG; mpx_cmd_start; ch_sel; sel_ros_req] ++
  flat_map (fun c => [GC c; GD c; sel_chain_req c; GK c; GF c; sel_cnt_rdy_zero c; GG c; GU c; GV c; GR c; sel_chan_busy c; sel_intrp_lch c; sel_gr_full c;
    sel_cnt_rdy_not_zero c; sel_status_stop_cond c; sel_diag_mode c; sel_diag_tag_ctrl c; sel_chain_det c; SEL_TAGS c; sel_poll_ctrl c; GE c; sel_halt_io c;
    sel_bus_out_ctrl c; GO c]) [false; true].
Lemma k_fb_frame w s : frame L_cs s (k_fb w s). Proof. unfold k_fb. frs. Qed.
Lemma k_fa_frame w s : frame L_cs s (k_fa w s). Proof. unfold k_fa. frs. Qed.
Lemma k_gh_frame w s : frame L_cs s (k_gh w s). Proof. unfold k_gh. frs. Qed.
Lemma k_gb_frame w s : frame L_cs s (k_gb w s). Proof. unfold k_gb, ros_done. frs. Qed.
Lemma k_ga_frame w s : frame L_cs s (k_ga w s). Proof. unfold k_ga. frs. Qed.
Lemma cs_frame w s : frame L_cs s (cs_order w s).
Proof. unfold cs_order. frs; eauto using k_fb_frame, k_fa_frame, k_gh_frame, k_gb_frame, k_ga_frame. Qed.
Definition L_stops := [hard_stop; priority_lch; MC_REG; STAT_REG].
Lemma stop_frame L s0 b s : inside L hard_stop -> inside L priority_lch -> frame L s0 s -> frame L s0 (stop b s).
Proof. intros A B C. unfold stop. frs. Qed.
Lemma hard_stops_frame sw w s : frame [hard_stop; priority_lch; MC_REG] s (hard_stops sw w s).
Proof. unfold hard_stops. repeat first [apply stop_frame; [reflexivity|reflexivity|]|progress frs]. Qed.
Lemma stops_frame sw w s : frame L_stops s (stops sw w s).
Proof. unfold stops. frs. eapply frame_weak; [apply hard_stops_frame|reflexivity]. Qed.

(** *** Storage is only touched by the storage part of a cycle. *)
Definition sm (s s' : cpu) : Prop := mm s' = mm s /\ ls s' = ls s /\ mp s' = mp s /\ mem_max s' = mem_max s.
Definition smr (s : cpu) (x : res cpu) : Prop := match x with Ok s' => sm s s' | _ => True end.
Lemma sm_refl s : sm s s. Proof. repeat split. Qed.
Lemma sm_trans s t u : sm s t -> sm t u -> sm s u.
Proof. intros (A & B & C & D) (E & F & G & H). repeat split; congruence. Qed.
Lemma sm_set s0 s r v : sm s0 s -> sm s0 (s <[r := v]>). Proof. auto. Qed.
Lemma sm_orr s0 s r v : sm s0 s -> sm s0 (orr r v s). Proof. auto. Qed.
Lemma sm_clr s0 s r v : sm s0 s -> sm s0 (clr r v s). Proof. auto. Qed.
Lemma sm_let s0 e (k : cpu -> cpu) : sm s0 e -> (forall s, sm s0 s -> sm s0 (k s)) -> sm s0 (let s := e in k s). Proof. auto. Qed.
Lemma smr_let s0 e (k : cpu -> res cpu) : sm s0 e -> (forall s, sm s0 s -> smr s0 (k s)) -> smr s0 (let s := e in k s). Proof. auto. Qed.
Lemma smr_ok s0 s : sm s0 s -> smr s0 (Ok s). Proof. auto. Qed.
Lemma smr_bind s0 e (k : cpu -> res cpu) : smr s0 e -> (forall s, sm s0 s -> smr s0 (k s)) -> smr s0 (bind e k).
Proof. destruct e as [s| |]; cbn; auto. Qed.
Lemma smr_val {A} s0 (e : res A) (k : A -> res cpu) : (forall v, smr s0 (k v)) -> smr s0 (bind e k).
Proof. destruct e as [s| |]; cbn; auto. Qed.
Lemma smr_inv s0 e s : smr s0 e -> e = Ok s -> sm s0 s. Proof. intros A ->. exact A. Qed.
Ltac sms :=
  repeat first
  [ assumption
  | lazymatch goal with
    | |- forall _, _ => intro
    | |- sm ?s ?s => apply sm_refl
    | |- sm _ (set _ _ _) => apply sm_set
    | |- sm _ (orr _ _ _) => apply sm_orr
    | |- sm _ (clr _ _ _) => apply sm_clr
    | |- sm ?s0 (let s := ?e in @?k s) =>
        lazymatch type of e with cpu => apply (sm_let s0 e k); cbv beta | _ => cbv zeta end
    | |- smr ?s0 (let s := ?e in @?k s) =>
        lazymatch type of e with cpu => apply (smr_let s0 e k); cbv beta | _ => cbv zeta end
    | |- smr _ (Ok _) => apply smr_ok
    | |- smr _ UB => exact I
    | |- smr ?s0 (bind ?e ?k) =>
        lazymatch type of e with res cpu => apply (smr_bind s0 e k) | _ => apply smr_val end
    | |- smr _ (match ?x with _ => _ end) => destruct x
    | |- sm _ (match ?x with _ => _ end) => destruct x
    end ].
Lemma dead_sm s n : sm s (dead s n). Proof. unfold dead. sms. Qed.
Lemma go_sm s n : sm s (go s n). Proof. unfold go. destruct (on s sel_ros_rest); step_if; sms. Qed.
Lemma ck_sm w s : sm s (ck_order w s). Proof. unfold ck_order. sms. Qed.
Lemma b_bus_sm sw w s : smr s (b_bus sw w s). Proof. unfold b_bus. sms. Qed.
Lemma a_bus_sm ti sw w s : smr s (a_bus ti sw w s). Proof. unfold a_bus, a_gate, a_plain. sms. Qed.
Lemma alu_step_sm sw w s : smr s (alu_step sw w s). Proof. unfold alu_step. sms. Qed.
Lemma dest_sm w s : sm s (dest w s). Proof. unfold dest. sms. Qed.
Lemma checks_sm sw w s : sm s (checks sw w s). Proof. unfold checks, save_carry. sms. Qed.
Lemma cs_sm w s : sm s (cs_order w s). Proof. unfold cs_order, k_fb, k_fa, k_gh, k_gb, k_ga, ros_done. sms. Qed.
Lemma stop_sm s0 b s : sm s0 s -> sm s0 (stop b s). Proof. intros H. unfold stop. sms. Qed.
Lemma stops_sm sw w s : sm s (stops sw w s).
Proof. unfold stops, hard_stops. repeat first [apply stop_sm|progress sms]. Qed.
Lemma read_addr_sm w s : smr s (read_addr w s). Proof. unfold read_addr. sms. Qed.
Lemma read_order_sm w s : smr s (read_order w s). Proof. unfold read_order. sms. Qed.

(** *** One microinstruction, part by part. *)
Definition L_mem := L_read ++ L_write ++ L_addr ++ L_order.
Lemma mem_order_fr w s : fr (L_write ++ L_addr ++ L_order) s (mem_order w s).
Proof.
  unfold mem_order. destruct (on s dead_cycle); [apply frame_refl|].
  apply fr_bind.
  { destruct (mem_write w s) eqn:E; cbn; auto. eapply frame_weak; [eapply fr_inv; [apply mem_write_fr|exact E]|reflexivity]. }
  intros s1 F1. apply fr_bind.
  { destruct (read_addr w s1) eqn:E; cbn; auto. eapply frame_trans; [exact F1|].
    eapply frame_weak; [eapply fr_inv; [apply read_addr_fr|exact E]|reflexivity]. }
  intros s2 F2. destruct (read_order w s2) eqn:E; cbn; auto. eapply frame_trans; [exact F2|].
  eapply frame_weak; [eapply fr_inv; [apply read_order_fr|exact E]|reflexivity].
Qed.
Lemma mem_fr w s s1 s2 : mem_read w s = Ok s1 -> mem_order w s1 = Ok s2 -> frame L_mem s s2.
Proof.
  intros A B. eapply frame_trans; [exact (fr_weak _ L_mem _ _ _ (mem_read_fr w s) A eq_refl)|exact (fr_weak _ L_mem _ _ _ (mem_order_fr w s1) B eq_refl)].
Qed.

(** The state before the ALU and after it. *)
Record parts (ti : Z) (sw : switches) (w : ros) (s s' : cpu) : Type := mkParts {
  p_read : cpu; p_mem : cpu; p_ck : cpu; p_b : cpu; p_a : cpu; p_alu : cpu;
  pe_read : mem_read w s = Ok p_read;
  pe_mem : mem_order w p_read = Ok p_mem;
  pe_ck : p_ck = ck_order w (go (p_mem <[end_of_e_cycle := b2z (CL w =? 15)]>) (next_wx w p_mem));
  pe_b : b_bus sw w p_ck = Ok p_b;
  pe_a : a_bus ti sw w p_b = Ok p_a;
  pe_alu : alu_step sw w p_a = Ok p_alu;
  pe_end : s' = stops sw w (cs_order w (checks sw w (dest w p_alu))) }.
Arguments p_read {ti sw w s s'}. Arguments p_mem {ti sw w s s'}. Arguments p_ck {ti sw w s s'}. Arguments p_b {ti sw w s s'}.
Arguments p_a {ti sw w s s'}. Arguments p_alu {ti sw w s s'}.
Arguments pe_read {ti sw w s s'}. Arguments pe_mem {ti sw w s s'}. Arguments pe_ck {ti sw w s s'}. Arguments pe_b {ti sw w s s'}.
Arguments pe_a {ti sw w s s'}. Arguments pe_alu {ti sw w s s'}. Arguments pe_end {ti sw w s s'}.

Lemma on_frame L s s' r : frame L s s' -> outside L r -> on s' r = on s r.
Proof. intros F O. unfold on. rewrite (F r O). reflexivity. Qed.
Lemma micro_parts ti sw w s s' : micro ti sw w s = Ok s' -> s!dead_cycle = 0 -> parts ti sw w s s'.
Proof.
  unfold micro. destruct (mem_read w s) as [s1| |] eqn:E1; cbn [bind]; try discriminate.
  destruct (mem_order w s1) as [s2| |] eqn:E2; cbn [bind]; try discriminate. cbv zeta. intros H D.
  assert (Z : on (s2 <[end_of_e_cycle := b2z (CL w =? 15)]>) dead_cycle = false).
  { unfold on. rewrite get_set. cbn [reg_beq]. rewrite (mem_fr w s s1 s2 E1 E2 dead_cycle eq_refl), D. reflexivity. }
  rewrite Z in H.
  destruct (b_bus sw w _) as [s4| |] eqn:E4 in H; cbn [bind] in H; try discriminate.
  destruct (a_bus ti sw w s4) as [s5| |] eqn:E5; cbn [bind] in H; try discriminate.
  destruct (alu_step sw w s5) as [s6| |] eqn:E6; cbn [bind] in H; try discriminate.
  injection H as <-. econstructor; [eassumption|eassumption|reflexivity|eassumption|eassumption|eassumption|reflexivity].
Qed.
(** Registers between the parts. *)
Definition L_pre := L_mem ++ [end_of_e_cycle] ++ L_go ++ L_ck ++ L_b ++ L_a.
Definition L_bus := L_b ++ L_a.
Definition L_post := L_dest ++ L_checks ++ L_cs ++ L_stops.
Lemma ck_fr_mem ti sw w s s' (p : parts ti sw w s s') : frame ([end_of_e_cycle] ++ L_go ++ L_ck) (p_mem p) (p_ck p).
Proof.
  rewrite (pe_ck p). eapply frame_trans; [|eapply frame_weak; [apply ck_frame|reflexivity]].
  eapply frame_trans; [|eapply frame_weak; [apply go_frame|reflexivity]].
  apply frame_set; [reflexivity|apply frame_refl].
Qed.
Lemma bus_fr ti sw w s s' (p : parts ti sw w s s') : frame L_bus (p_ck p) (p_a p).
Proof.
  eapply frame_trans; [exact (fr_weak _ L_bus _ _ _ (b_bus_fr _ _ _) (pe_b p) eq_refl)|exact (fr_weak _ L_bus _ _ _ (a_bus_fr _ _ _ _) (pe_a p) eq_refl)].
Qed.
Lemma pre_fr ti sw w s s' (p : parts ti sw w s s') : frame L_pre s (p_a p).
Proof.
  eapply frame_trans; [eapply frame_weak; [eapply mem_fr; [apply (pe_read p)|apply (pe_mem p)]|reflexivity]|].
  eapply frame_trans; [exact (frame_weak _ L_pre _ _ (ck_fr_mem _ _ _ _ _ p) eq_refl)|exact (frame_weak _ L_pre _ _ (bus_fr _ _ _ _ _ p) eq_refl)].
Qed.
Lemma alu_fr ti sw w s s' (p : parts ti sw w s s') : frame L_alu (p_a p) (p_alu p).
Proof. eapply fr_inv; [apply alu_step_fr|apply (pe_alu p)]. Qed.
Lemma post_fr ti sw w s s' (p : parts ti sw w s s') : frame L_post (p_alu p) s'.
Proof.
  rewrite (pe_end p). do 3 (eapply frame_trans; [|eapply frame_weak; [first [apply stops_frame|apply cs_frame|apply checks_frame]|reflexivity]]).
  eapply frame_weak; [apply dest_frame|reflexivity].
Qed.
Lemma post_sm ti sw w s s' (p : parts ti sw w s s') : sm (p_mem p) s'.
Proof.
  rewrite (pe_end p). do 3 (eapply sm_trans; [|first [apply stops_sm|apply cs_sm|apply checks_sm]]). eapply sm_trans; [|apply dest_sm].
  eapply sm_trans; [|eapply smr_inv; [apply alu_step_sm|apply (pe_alu p)]].
  eapply sm_trans; [|eapply smr_inv; [apply a_bus_sm|apply (pe_a p)]].
  eapply sm_trans; [|eapply smr_inv; [apply b_bus_sm|apply (pe_b p)]].
  rewrite (pe_ck p). eapply sm_trans; [|apply ck_sm]. eapply sm_trans; [|apply go_sm]. apply sm_set, sm_refl.
Qed.
