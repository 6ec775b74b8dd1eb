(** The tape control: an invariant of all its executions. *)
From Verif Require Export T2415.Spec Tape.Window Tape.Records Tape.Tap Tape.Safety.

(** The window of drive [u] is in order, or there is no tape; if [p u] is a file, it is the protected file on that drive. *)
Definition prot_ok (p : Z -> option (list Z)) (u : Z) (w : win) : Prop :=
  match p u with Some f => w_ro w = true /\ w_file w = f | None => True end.
Definition good_win (p : Z -> option (list Z)) (u : Z) (w : win) : Prop := win_ok w /\ prot_ok p u w.
Definition good (p : Z -> option (list Z)) (u : Z) (t : tape) : Prop :=
  length (w_buf (t_win t)) = BS /\ (win_ok (t_win t) \/ (t_att t = false /\ w_dirty (t_win t) = false)) /\ prot_ok p u (t_win t).
Lemma good_of p u t : good_win p u (t_win t) -> good p u t.
Proof. intros [W P]. split; [apply W|]. split; [left; exact W|exact P]. Qed.
Lemma good_same p u t t' : t_win t' = t_win t -> t_att t' = t_att t -> good p u t -> good p u t'.
Proof. unfold good. intros -> ->. exact (fun H => H). Qed.
Lemma good_stays p u w w' : good_win p u w -> stays w w' -> good_win p u w'.
Proof.
  intros [H F] (H' & R' & F'). split; [exact H'|]. unfold prot_ok in *. destruct (p u); [|exact I]. destruct F as [R F].
  split; [congruence|]. rewrite F' by exact R. exact F.
Qed.
Definition sf2 (p : Z -> option (list Z)) (u : Z) (r : res (tape * status)) : Prop :=
  match r with Ok (t, _) => good p u t | UB => False | NoFuel => True end.
Definition sf3 (p : Z -> option (list Z)) (u : Z) (r : res (tape * status * Z)) : Prop :=
  match r with Ok (t, _, _) => good p u t | UB => False | NoFuel => True end.
Section Ops.
Variable p : Z -> option (list Z).
Variable u : Z.
Let P := good_win p u.
Lemma g3 A (t : tape) (r : res (tape * status * A)) : P (t_win t) -> safe3 (stays (t_win t)) r -> safe3 P r.
Proof. destruct r as [[[t1 s] a]| |]; cbn; intros K X; auto. eapply good_stays; eauto. Qed.
Lemma g2 (t : tape) (r : res (tape * status)) : P (t_win t) -> safe2 (stays (t_win t)) r -> safe2 P r.
Proof. destruct r as [[t1 s]| |]; cbn; intros K X; auto. eapply good_stays; eauto. Qed.
Lemma g_read t d : P (t_win t) -> safe3 P (tape_read_byte t d).
Proof. intros K. eapply g3; [exact K|]. apply read_byte_stays, K. Qed.
Lemma g_peek t d : P (t_win t) -> safe3 P (tape_peek_byte t d).
Proof. intros K. eapply g3; [exact K|]. apply peek_byte_stays, K. Qed.
Lemma g_readbk t d : P (t_win t) -> safe3 P (tape_readbk_byte t d).
Proof. intros K. eapply g3; [exact K|]. apply readbk_byte_stays, K. Qed.
Lemma g_write t d : P (t_win t) -> safe2 P (tape_write_byte t d).
Proof. intros K. eapply g2; [exact K|]. apply write_byte_stays, K. Qed.
Lemma g_prev t d : P (t_win t) -> safe2 P (tape_write_prev t d).
Proof. intros K. eapply g2; [exact K|]. apply write_prev_stays, K. Qed.
Lemma up2 r : safe2 P r -> sf2 p u r.
Proof. destruct r as [[t1 s]| |]; cbn; auto. apply good_of. Qed.
Lemma up3 r : safe3 P r -> sf3 p u r.
Proof. destruct r as [[[t1 s] a]| |]; cbn; auto. apply good_of. Qed.
Ltac both H := intros H; pose proof H as (_ & [W|[A D]] & PR).
Lemma g_read_forw t : good p u t -> sf2 p u (tape_read_forw t).
Proof. both H; [|unfold tape_read_forw; rewrite A; exact H]. apply up2, read_forw_safe; [apply g_read|apply g_peek|apply g_readbk|split; assumption]. Qed.
Lemma g_read_back t : good p u t -> sf2 p u (tape_read_back t).
Proof. both H; [|unfold tape_read_back; rewrite A; exact H]. apply up2, read_back_safe; [apply g_read|apply g_readbk|split; assumption]. Qed.
Lemma g_read_frame t d : good p u t -> sf3 p u (tape_read_frame t d).
Proof. both H; [|unfold tape_read_frame; rewrite A; exact H]. apply up3, read_frame_safe; [apply g_read|apply g_readbk|split; assumption]. Qed.
Lemma g_finish n j t : good p u t -> sf2 p u (tape_finish_rec n j t).
Proof. both H; [|unfold tape_finish_rec; rewrite A; exact H]. apply up2, finish_rec_safe; [apply g_read|apply g_readbk|apply g_write|apply g_prev|split; assumption]. Qed.
Lemma g_write_start t : good p u t -> sf2 p u (tape_write_start t).
Proof. both H; [|unfold tape_write_start; rewrite A; exact H]. apply up2, write_start_safe; [apply g_write|split; assumption]. Qed.
Lemma g_write_mark t : good p u t -> sf2 p u (tape_write_mark t).
Proof. both H; [|unfold tape_write_mark; rewrite A; exact H]. apply up2, write_mark_safe; [apply g_write|split; assumption]. Qed.
Lemma g_write_frame t d : good p u t -> sf2 p u (tape_write_frame t d).
Proof. both H; [|unfold tape_write_frame; rewrite A; exact H]. apply up2, write_frame_safe; [apply g_write|split; assumption]. Qed.
Lemma g_rewind t : good p u t -> good p u (fst (tape_start_rewind t)).
Proof.
  both H.
  - apply good_of. unfold good_win, prot_ok in *. destruct (p u) as [f|].
    + destruct PR as [R F]. destruct (rewind_kept true f t) as (X1 & X2 & X3); [split; [exact W|split; auto]|].
      split; [exact X1|]. split; [exact X2|]. apply X3. reflexivity.
    + destruct (rewind_kept (w_ro (t_win t)) (w_file (t_win t)) t) as (X1 & _); [split; [exact W|split; auto]|]. split; [exact X1|exact I].
  - unfold tape_start_rewind, flush. rewrite D. cbn [fst]. apply good_of. cbn [t_win set_win]. split; [|exact PR]. destruct H as [L _].
    split; [exact L|]. split; [apply Nat.le_refl|]. split; [apply Nat.le_0_l|]. split; [apply Nat.le_0_l|]. intros _. reflexivity.
Qed.
Lemma g_detach t : good p u t -> good p u (fst (tape_detach t)).
Proof.
  intros (L & _ & PR). unfold tape_detach, flush. split; [|split].
  - cbn [fst t_win w_buf]. destruct (w_dirty (t_win t)); [destruct (w_ro (t_win t))|]; exact L.
  - right. split; reflexivity.
  - cbn [fst t_win]. unfold prot_ok in *. cbn [w_ro w_file]. destruct (p u); [|exact I]. destruct PR as [R F]. rewrite R. destruct (w_dirty (t_win t)); split; assumption.
Qed.
Lemma g_attach t f ty ring hi : p u = None -> good p u t -> good p u (tape_attach t f ty ring hi).
Proof.
  intros N (L & _). apply good_of. split; [|unfold prot_ok; rewrite N; exact I]. split; [exact L|].
  split; [apply Nat.le_refl|]. split; [apply Nat.le_0_l|]. split; [apply Nat.le_0_l|]. intros _. reflexivity.
Qed.
Lemma g_frames t n : good p u t -> good p u (fst (tape_rewind_frames t n)).
Proof.
  apply good_same; [apply rewind_frames_win|]. unfold tape_rewind_frames. destruct (t_att t) eqn:A; cbn [negb]; [|exact A]. destruct (_ <? _); exact A.
Qed.
Lemma g_sel b t : good p u t -> good p u (tape_selected b t).
Proof. exact (fun H => H). Qed.
Lemma g_online b t : good p u t -> good p u (tape_online b t).
Proof. exact (fun H => H). Qed.
Lemma g_frame x t : good p u t -> good p u (set_frame t x).
Proof. exact (fun H => H). Qed.
End Ops.

Definition unit_in (u : Z) : Prop := 0 <= u < 6.
Definition tapes_ok (p : Z -> option (list Z)) (l : list (option tape)) : Prop :=
  length l = 6%nat /\ forall u o, unit_in u -> nth_error l (Z.to_nat u) = Some o -> exists t, o = Some t /\ good p u t.
Definition inv (p : Z -> option (list Z)) (s : dev) : Prop :=
  tapes_ok p (d_tapes s) /\ unit_in (d_cur s) /\ Forall (fun e => unit_in (snd e)) (d_pend s) /\
  0 <= d_status s < 256 /\ 0 <= d_data s < 256 /\ unit_in (d_scan s).
Lemma iv_st p v s : inv p s -> inv p (set_st v s).
Proof. exact (fun H => H). Qed.
Lemma iv_sel p v s : inv p s -> inv p (set_sel v s).
Proof. exact (fun H => H). Qed.
Lemma iv_req p v s : inv p s -> inv p (set_req v s).
Proof. exact (fun H => H). Qed.
Lemma iv_stk p v s : inv p s -> inv p (set_stk v s).
Proof. exact (fun H => H). Qed.
Lemma iv_sense0 p v s : inv p s -> inv p (set_sense0 v s).
Proof. exact (fun H => H). Qed.
Lemma iv_sense1 p v s : inv p s -> inv p (set_sense1 v s).
Proof. exact (fun H => H). Qed.
Lemma iv_sense2 p v s : inv p s -> inv p (set_sense2 v s).
Proof. exact (fun H => H). Qed.
Lemma iv_sense3 p v s : inv p s -> inv p (set_sense3 v s).
Proof. exact (fun H => H). Qed.
Lemma iv_scnt p v s : inv p s -> inv p (set_scnt v s).
Proof. exact (fun H => H). Qed.
Lemma iv_busy p v s : inv p s -> inv p (set_busy v s).
Proof. exact (fun H => H). Qed.
Lemma iv_chain p v s : inv p s -> inv p (set_chain v s).
Proof. exact (fun H => H). Qed.
Lemma iv_cmd p v s : inv p s -> inv p (set_cmd v s).
Proof. exact (fun H => H). Qed.
Lemma iv_cmd_done p v s : inv p s -> inv p (set_cmd_done v s).
Proof. exact (fun H => H). Qed.
Lemma iv_cbuf p v s : inv p s -> inv p (set_cbuf v s).
Proof. exact (fun H => H). Qed.
Lemma iv_data_rdy p v s : inv p s -> inv p (set_data_rdy v s).
Proof. exact (fun H => H). Qed.
Lemma iv_data_end p v s : inv p s -> inv p (set_data_end v s).
Proof. exact (fun H => H). Qed.
Lemma iv_post p v s : inv p s -> inv p (set_post v s).
Proof. exact (fun H => H). Qed.
Lemma iv_cbusy p v s : inv p s -> inv p (set_cbusy v s).
Proof. exact (fun H => H). Qed.
Lemma iv_statu p v s : inv p s -> inv p (set_statu v s).
Proof. exact (fun H => H). Qed.
Lemma iv_rew p v s : inv p s -> inv p (set_rew v s).
Proof. exact (fun H => H). Qed.
Lemma iv_run p v s : inv p s -> inv p (set_run v s).
Proof. exact (fun H => H). Qed.
Lemma iv_rdyf p v s : inv p s -> inv p (set_rdyf v s).
Proof. exact (fun H => H). Qed.
Lemma iv_mrk p v s : inv p s -> inv p (set_mrk v s).
Proof. exact (fun H => H). Qed.
Lemma iv_cc p v s : inv p s -> inv p (set_cc v s).
Proof. exact (fun H => H). Qed.
Lemma iv_mode7 p v s : inv p s -> inv p (set_mode7 v s).
Proof. exact (fun H => H). Qed.
Lemma iv_mode9 p v s : inv p s -> inv p (set_mode9 v s).
Proof. exact (fun H => H). Qed.
Lemma iv_status p v s : 0 <= v < 256 -> inv p s -> inv p (set_status v s).
Proof. intros V (H1 & H2 & H3 & H4 & H5 & H6). split; [exact H1|]. split; [exact H2|]. split; [exact H3|]. split; [exact V|]. split; [exact H5|exact H6]. Qed.
Lemma iv_data p v s : 0 <= v < 256 -> inv p s -> inv p (set_data v s).
Proof. intros V (H1 & H2 & H3 & H4 & H5 & H6). split; [exact H1|]. split; [exact H2|]. split; [exact H3|]. split; [exact H4|]. split; [exact V|exact H6]. Qed.
Lemma iv_cur p v s : unit_in v -> inv p s -> inv p (set_cur v s).
Proof. intros V (H1 & H2 & H3 & H4 & H5 & H6). split; [exact H1|]. split; [exact V|]. split; [exact H3|]. split; [exact H4|]. split; [exact H5|exact H6]. Qed.
Lemma iv_scan p v s : unit_in v -> inv p s -> inv p (set_scan v s).
Proof. intros V (H1 & H2 & H3 & H4 & H5 & H6). split; [exact H1|]. split; [exact H2|]. split; [exact H3|]. split; [exact H4|]. split; [exact H5|exact V]. Qed.
Lemma iv_pend p v s : Forall (fun e => unit_in (snd e)) v -> inv p s -> inv p (set_pend v s).
Proof. intros V (H1 & H2 & H3 & H4 & H5 & H6). split; [exact H1|]. split; [exact H2|]. split; [exact V|]. split; [exact H4|]. split; [exact H5|exact H6]. Qed.
Lemma iv_add p k u s : unit_in u -> inv p s -> inv p (add_ev k u s).
Proof. intros V H. apply iv_pend; [|exact H]. apply Forall_app. split; [apply H|]. apply Forall_cons; [exact V|apply Forall_nil]. Qed.
Lemma iv_tape p u t s : unit_in u -> good p u t -> inv p s -> inv p (set_tape u t s).
Proof.
  intros V G (H1 & H2 & H3 & H4 & H5 & H6). split; [|split; [exact H2|]; split; [exact H3|]; split; [exact H4|]; split; [exact H5|exact H6]].
  destruct H1 as [L H]. unfold tapes_ok, set_tape. cbn [d_tapes set_tapes]. split; [rewrite upd_length; exact L|].
  intros v o V' N. destruct (Z.eq_dec v u) as [->|NE].
  - rewrite upd_same in N; [|rewrite L; unfold unit_in in V; lia]. injection N as <-. exists t. split; [reflexivity|exact G].
  - rewrite upd_other in N; [apply (H _ _ V' N)|]. unfold unit_in in *. lia.
Qed.
Lemma lor_byte x m : 0 <= x < 256 -> 0 <= m < 256 -> 0 <= Z.lor x m < 256.
Proof.
  intros X M. split; [apply Z.lor_nonneg; lia|]. destruct (Z.eq_dec (Z.lor x m) 0) as [->|N]; [lia|]. apply Z.log2_lt_cancel. change (Z.log2 256) with 8.
  rewrite Z.log2_lor by lia. assert (Z.log2 x < 8) by (destruct (Z.eq_dec x 0) as [->|]; [reflexivity|apply Z.log2_lt_pow2; lia]).
  assert (Z.log2 m < 8) by (destruct (Z.eq_dec m 0) as [->|]; [reflexivity|apply Z.log2_lt_pow2; lia]). lia.
Qed.
Lemma land_le x m : 0 <= x < 256 -> 0 <= Z.land x m < 256.
Proof.
  intros X. assert (0 <= Z.land x m) by (apply Z.land_nonneg; lia). split; [assumption|]. replace (Z.land x m) with (Z.land (Z.land x m) 255); [apply land_byte|].
  rewrite <- Z.land_assoc, (Z.land_comm m), Z.land_assoc. change 255 with (Z.ones 8). rewrite (Z.land_ones x 8) by lia. rewrite Z.mod_small by (cbn; lia). reflexivity.
Qed.
Lemma mod_byte x : 0 <= x mod 256 < 256.
Proof. apply Z.mod_pos_bound. lia. Qed.
Lemma iv_or_status p v s : 0 <= v < 256 -> inv p s -> inv p (or_status v s).
Proof. intros V R. apply iv_status; [apply lor_byte; [apply R|exact V]|exact R]. Qed.
Lemma iv_or_sense p v s : inv p s -> inv p (or_sense v s).
Proof. exact (fun H => H). Qed.
Lemma iv_clear p s : inv p s -> inv p (clear_sense s).
Proof. exact (fun H => H). Qed.
Lemma iv_start p s : inv p s -> inv p (start_ev s).
Proof. intros H. apply iv_cmd_done. apply iv_add; [apply H|exact H]. Qed.
Ltac sm := cbv; split; congruence.
Ltac rg := repeat match goal with
  | H : inv ?p ?x |- inv ?p ?x => exact H
  | |- inv _ ?x => match x with
    | set_st _ _ => apply iv_st | set_sel _ _ => apply iv_sel | set_req _ _ => apply iv_req | set_stk _ _ => apply iv_stk | set_sense0 _ _ => apply iv_sense0 | set_sense1 _ _ => apply iv_sense1 | set_sense2 _ _ => apply iv_sense2 | set_sense3 _ _ => apply iv_sense3 | set_scnt _ _ => apply iv_scnt | set_busy _ _ => apply iv_busy | set_chain _ _ => apply iv_chain | set_cmd _ _ => apply iv_cmd | set_cmd_done _ _ => apply iv_cmd_done | set_cbuf _ _ => apply iv_cbuf | set_data_rdy _ _ => apply iv_data_rdy | set_data_end _ _ => apply iv_data_end | set_post _ _ => apply iv_post | set_cbusy _ _ => apply iv_cbusy | set_statu _ _ => apply iv_statu | set_rew _ _ => apply iv_rew | set_run _ _ => apply iv_run | set_rdyf _ _ => apply iv_rdyf | set_mrk _ _ => apply iv_mrk | set_cc _ _ => apply iv_cc | set_mode7 _ _ => apply iv_mode7 | set_mode9 _ _ => apply iv_mode9
    | or_status _ _ => apply iv_or_status; [sm|] | or_sense _ _ => apply iv_or_sense | clear_sense _ => apply iv_clear | start_ev _ => apply iv_start
    | add_ev _ _ _ => apply iv_add; [assumption|] | set_status _ _ => apply iv_status; [first [sm|assumption]|] | set_data (_ mod 256) _ => apply iv_data; [apply mod_byte|]
    | set_data _ _ => apply iv_data; [assumption|]
    | set_tape _ _ _ => apply iv_tape; [assumption|assumption|] 
    | if ?b then _ else _ => destruct b
    | (let _ := _ in _) => cbv zeta
    | match ?r with SErr => _ | _ => _ end => destruct r
    end end.

Definition okr (p : Z -> option (list Z)) (r : res dev) : Prop := match r with Ok s => inv p s | UB => False | NoFuel => True end.
Lemma unit_ok p s u : inv p s -> unit_in u -> exists t, unit_tape s u = Ok (Some t) /\ good p u t.
Proof.
  intros ((L & H) & _) U. unfold unit_tape. assert (u <? 0 = false) as -> by (unfold unit_in in U; lia).
  destruct (nth_error (d_tapes s) (Z.to_nat u)) as [o|] eqn:N.
  - destruct (H u o U N) as (t & -> & G). exists t. split; [reflexivity|exact G].
  - apply nth_error_None in N. unfold unit_in in U. lia.
Qed.
Lemma the_ok p s u : inv p s -> unit_in u -> exists t, the_tape s u = Ok t /\ good p u t.
Proof. intros H U. destruct (unit_ok p s u H U) as (t & E & G). exists t. unfold the_tape. rewrite E. split; [reflexivity|exact G]. Qed.
Lemma nine_ok p s : inv p s -> exists b, nine s = Ok b.
Proof. intros H. destruct (unit_ok p s (d_cur s) H ltac:(apply H)) as (t & E & _). unfold nine. rewrite E. eexists. reflexivity. Qed.
Lemma okr_bind p r k : okr p r -> (forall s, inv p s -> okr p (k s)) -> okr p (bind r k).
Proof. destruct r; cbn; auto; try contradiction. Qed.
Lemma okr_let p X (B : dev -> res dev) : inv p X -> (forall s, inv p s -> okr p (B s)) -> okr p (B X).
Proof. auto. Qed.
Lemma six_ok d : exists b, six_parity d = Ok b /\ 0 <= b < 256.
Proof.
  unfold six_parity. destruct (tab_ok parity_table (Z.land d 63)) as (p & E).
  - change 63 with (Z.ones 6). rewrite Z.land_ones by lia. pose proof (Z.mod_pos_bound d (2 ^ 6) ltac:(lia)). cbn in *. lia.
  - cbv zeta. rewrite E. cbn [bind]. eexists. split; [reflexivity|]. apply lor_byte.
    + change 63 with (Z.ones 6). rewrite Z.land_ones by lia. pose proof (Z.mod_pos_bound d (2 ^ 6) ltac:(lia)). cbn in *. lia.
    + assert (F : forallb (fun x => (0 <=? x) && (x <? 256)) parity_table = true) by (vm_compute; reflexivity).
      rewrite forallb_forall in F. unfold tab in E. destruct (Z.land d 63 <? 0); [discriminate E|].
      destruct (nth_error parity_table (Z.to_nat (Z.land d 63))) as [y|] eqn:N; [|discriminate E]. injection E as ->. specialize (F p (nth_error_In _ _ N)). lia.
Qed.
