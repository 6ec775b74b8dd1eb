(** Every step: what it keeps, when it is defined, and the queue. *)
From Verif Require Import K1052.Spec K1052.Proofs.

Lemma lor_byte v m : is_byte v -> is_byte m -> is_byte (Z.lor v m).
Proof.
  intros V M. unfold is_byte. pose proof (sweep2 256 256 (fun v m => (0 <=? Z.lor v m) && (Z.lor v m <? 256)) ltac:(vm_compute; reflexivity) v m V M) as S.
  apply andb_true_iff in S. lia.
Qed.
Lemma byte_const n : (0 <=? n) && (n <? 256) = true -> is_byte n.
Proof. intros H. apply andb_true_iff in H. unfold is_byte. lia. Qed.
Lemma parity_odd v : is_byte v -> exists w, with_parity v = Ok w /\ odd9 w.
Proof. intros H. destruct (with_parity_ok v H) as (y & E & O & _ & R). exists y. split; [exact E|]. split; assumption. Qed.
Lemma parity_ub v : ~ is_byte v -> with_parity v = UB.
Proof. intros H. unfold with_parity. rewrite tab_out; [reflexivity|]. replace (length odd_parity) with 256%nat by reflexivity. exact H. Qed.

(** The invariant; [q] is the queue before the step, which may have been emptied. *)
Record okq (q : list Z) (s : dev) : Prop := mkOkq {
  ok_cmd : is_byte (c_cmd s); ok_status : is_byte (c_status s); ok_sense : is_byte (c_sense s); ok_queue : queue_ok s; ok_is : queue s = q \/ queue s = [] }.
Ltac okt := let H := fresh in intros H; destruct H; constructor; cbn; assumption || (apply lor_byte; [assumption|apply byte_const; reflexivity]).
Lemma oq_st q x s : okq q s -> okq q (set_st x s). Proof. okt. Qed.
Lemma oq_sel q x s : okq q s -> okq q (set_sel x s). Proof. okt. Qed.
Lemma oq_req q x s : okq q s -> okq q (set_req x s). Proof. okt. Qed.
Lemma oq_stk q x s : okq q s -> okq q (set_stk x s). Proof. okt. Qed.
Lemma oq_bsy q x s : okq q s -> okq q (set_bsy x s). Proof. okt. Qed.
Lemma oq_data q x s : okq q s -> okq q (set_data x s). Proof. okt. Qed.
Lemma oq_rdyd q x s : okq q s -> okq q (set_rdyd x s). Proof. okt. Qed.
Lemma oq_end q x s : okq q s -> okq q (set_end x s). Proof. okt. Qed.
Lemma oq_done q x s : okq q s -> okq q (set_done x s). Proof. okt. Qed.
Lemma oq_poll q x s : okq q s -> okq q (set_poll x s). Proof. okt. Qed.
Lemma oq_pend q x s : okq q s -> okq q (set_pend x s). Proof. okt. Qed.
Lemma oq_ocr q x s : okq q s -> okq q (set_ocr x s). Proof. okt. Qed.
Lemma oq_oflg q x s : okq q s -> okq q (set_oflg x s). Proof. okt. Qed.
Lemma oq_obuf q x s : okq q s -> okq q (set_obuf x s). Proof. okt. Qed.
Lemma oq_sense q x s : is_byte x -> okq q s -> okq q (set_sense x s). Proof. intros X. okt. Qed.
Lemma oq_cmd q x s : is_byte x -> okq q s -> okq q (set_cmd x s). Proof. intros X. okt. Qed.
Lemma oq_status q x s : is_byte x -> okq q s -> okq q (set_status x s). Proof. intros X. okt. Qed.
Lemma oq_orse q m s : is_byte m -> okq q s -> okq q (or_sense m s). Proof. intros M H. apply oq_sense; [apply lor_byte; [apply H|exact M]|exact H]. Qed.
Lemma oq_orst q m s : is_byte m -> okq q s -> okq q (or_status m s). Proof. intros M H. apply oq_status; [apply lor_byte; [apply H|exact M]|exact H]. Qed.
Lemma byte_land bo : is_byte (Z.land bo 255). Proof. exact (land_byte bo). Qed.
Lemma func_fields s t : c_st (fst (func s t)) = c_st s /\ c_cmd (fst (func s t)) = c_cmd s /\ c_status (fst (func s t)) = c_status s /\ c_sense (fst (func s t)) = c_sense s /\
  c_data (fst (func s t)) = c_data s.
Proof. unfold func. destruct (c_cons s); [|repeat split]. destruct (bit t 1), (bit t 2), (bit t 128), (Z.land t 80 =? 80), (bit t 4); repeat split. Qed.
Lemma oq_func q t s : okq q s -> okq q (fst (func s t)).
Proof.
  intros [A B C D E]. destruct (func_q s t D) as [D' E']. destruct (func_fields s t) as (F0 & F1 & F2 & F3 & _).
  constructor; rewrite ?F1, ?F2, ?F3; try assumption. rewrite E'. destruct (_ && _); [right; reflexivity|exact E].
Qed.
#[export] Hint Resolve oq_st oq_sel oq_req oq_stk oq_bsy oq_data oq_rdyd oq_end oq_done oq_poll oq_pend oq_ocr oq_oflg oq_obuf oq_sense oq_cmd oq_status oq_orse oq_orst byte_land oq_func : oq.
#[export] Hint Extern 1 (is_byte _) => (apply byte_const; reflexivity) : oq.
Lemma oq_begin q c s : is_byte c -> okq q s -> okq q (begin_cmd c s).
Proof. intros C []. constructor; cbn; assumption || (apply byte_const; reflexivity). Qed.
Lemma oq_reset q s : okq q s -> okq q (reset_dev s).
Proof. intros []. constructor; cbn; assumption || (apply byte_const; reflexivity). Qed.
#[export] Hint Resolve oq_begin oq_reset : oq.
Lemma oq_reject q s : okq q s -> okq q (reject s). Proof. intros H. unfold reject. auto 10 with oq. Qed.
Lemma oq_all_done q s : okq q s -> okq q (all_done s). Proof. intros H. unfold all_done. auto 10 with oq. Qed.
#[export] Hint Resolve oq_reject oq_all_done : oq.
Ltac brk := repeat (match goal with
  | |- context[if ?b then _ else _] => lazymatch b with context[if _ then _ else _] => fail | _ => destruct b end
  end; cbn [bind]; cbv beta iota).
Lemma oq_device_cmd q bo s : okq q s -> okq q (device_cmd bo s).
Proof.
  intros H. unfold device_cmd. cbv zeta. pose proof (oq_begin q (Z.land bo 255) s (byte_land bo) H) as B. set (s1 := begin_cmd (Z.land bo 255) s) in *. assert (SE : is_byte (c_sense s1)) by apply B. clearbody s1.
  brk; auto 10 with oq.
Qed.
#[export] Hint Resolve oq_device_cmd : oq.

Definition good (s : dev) (t : tags) (bi : Z) (r : res (dev * tags * Z)) : Prop :=
  match r with Ok (s', t', b') => okq (queue s) s' /\ (b' = bi \/ odd9 b') /\ ~ undefined_cycle s t | UB => undefined_cycle s t | NoFuel => False end.
Lemma step_good a s t bo bi : is_byte a -> okq (queue s) s -> good s t bi (dev_step a s t bo bi).
Proof.
  intros A O. destruct (bad_parity_ok bo) as [bad BP]. destruct (parity_odd a A) as (wa & EA & OA). destruct (parity_odd _ (ok_status _ s O)) as (ws & ES & OS).
  assert (EB : with_parity SNS_BSY = Ok 16) by reflexivity. assert (OB : odd9 16) by (split; [lia|reflexivity]).
  set (q := queue s) in *. assert (G : forall s' t' b', okq q s' -> (b' = bi \/ odd9 b') -> ~ undefined_cycle s t -> good s t bi (Ok (s', t', b'))) by (intros; cbn [good]; auto).
  unfold dev_step. destruct (negb (opro t) && negb (supo t)) eqn:RST.
  { apply G; [auto with oq|left; reflexivity|]. intros [N _]. apply N. unfold resetting. apply andb_true_iff in RST. destruct RST as [R1 R2]. apply negb_true_iff in R1, R2. split; assumption. }
  assert (NR : ~ resetting t). { intros [R1 R2]. rewrite R1, R2 in RST. discriminate. }
  assert (ND : c_st s <> DATA_1 -> c_st s <> DATA_2 -> ~ undefined_cycle s t) by (intros N1 N2 (_ & [[X _]|X] & _); contradiction).
  destruct (c_st s) eqn:ST; try (specialize (ND ltac:(discriminate) ltac:(discriminate))); rewrite ?EA, ?ES, ?EB, ?BP; cbn [bind]; cbv zeta.
  - brk; apply G; first [exact ND | left; reflexivity | right; assumption | auto 12 with oq].
  - brk; apply G; first [exact ND | left; reflexivity | right; assumption | auto 12 with oq].
  - brk; apply G; first [exact ND | left; reflexivity | right; assumption | auto 12 with oq].
  - brk; apply G; first [exact ND | left; reflexivity | right; assumption | auto 12 with oq].
  - destruct (c_attn s).
    + assert (O1 : okq q (or_status SNS_ATTN (fst (func s 2)))) by auto with oq. destruct (parity_odd _ (ok_status _ _ O1)) as (w1 & E1 & OW1). rewrite E1. cbn [bind].
      apply G; first [exact ND | right; assumption | auto 12 with oq].
    + rewrite ES. cbn [bind]. apply G; first [exact ND | right; assumption | auto 12 with oq].
  - brk; apply G; first [exact ND | left; reflexivity | right; assumption | auto 12 with oq].
  - brk; apply G; first [exact ND | left; reflexivity | right; assumption | auto 12 with oq].
  - brk; apply G; first [exact ND | left; reflexivity | right; assumption | auto 12 with oq].
  - brk; apply G; first [exact ND | left; reflexivity | right; assumption | auto 12 with oq].
  - brk; apply G; first [exact ND | left; reflexivity | right; assumption | auto 12 with oq].
  - brk; apply G; first [exact ND | left; reflexivity | right; assumption | auto 12 with oq].
  - assert (DB : is_byte (c_data s) \/ ~ is_byte (c_data s)) by (unfold is_byte; lia).
    destruct (srvo (set_selo false t) || supo (set_selo false t)) eqn:B.
    + apply G; [assumption|left; reflexivity|]. intros (_ & [(_ & X1 & X2)|X] & _); [|congruence]. cbn in B. rewrite X1, X2 in B. discriminate.
    + destruct DB as [D|D].
      * destruct (parity_odd _ D) as (wd & ED & OD). rewrite ED. cbn [bind]. apply G; [auto with oq|right; exact OD|]. intros (_ & _ & X). contradiction.
      * rewrite (parity_ub _ D). cbn [bind good]. apply orb_false_iff in B. cbn in B. split; [exact NR|]. split; [left; tauto|exact D].
  - assert (DB : is_byte (c_data s) \/ ~ is_byte (c_data s)) by (unfold is_byte; lia). destruct DB as [D|D].
    + assert (NU : ~ undefined_cycle s t) by (intros (_ & _ & X); contradiction). destruct (parity_odd _ D) as (wd & ED & OD). rewrite ED. cbn [bind].
      brk; apply G; first [exact NU | right; assumption | auto 12 with oq].
    + rewrite (parity_ub _ D). cbn [bind good]. split; [exact NR|]. split; [right; exact ST|exact D].
Qed.

(** The other steps. *)
Definition okd (s : dev) : Prop := okq (queue s) s.
Lemma okd_mk s : is_byte (c_cmd s) -> is_byte (c_status s) -> is_byte (c_sense s) -> queue_ok s -> okd s.
Proof. intros. constructor; auto. Qed.
Lemma okq_okd q s : okq q s -> okd s. Proof. intros []. apply okd_mk; assumption. Qed.
Lemma flush_keep s : sameq s (flush s) /\ c_cmd (flush s) = c_cmd s /\ c_status (flush s) = c_status s /\ c_sense (flush s) = c_sense s /\ c_cons (flush s) = c_cons s /\ c_iflg (flush s) = c_iflg s /\
  c_tn (flush s) = c_tn s /\ c_attn (flush s) = c_attn s /\ c_eob (flush s) = c_eob s /\ c_cancel (flush s) = c_cancel s.
Proof. unfold flush, send_out, sameq. destruct (c_oflg s), (c_ocr s) eqn:E, (c_cons s) eqn:F; cbn; rewrite ?E; cbn; rewrite ?F; repeat split; assumption. Qed.
Lemma telnet_fields b s : c_cmd (telnet b s) = c_cmd s /\ c_status (telnet b s) = c_status s /\ c_sense (telnet b s) = c_sense s.
Proof.
  assert (P : forall s, c_cmd (push_char b s) = c_cmd s /\ c_status (push_char b s) = c_status s /\ c_sense (push_char b s) = c_sense s).
  { intros x. unfold push_char. brk; repeat split. }
  unfold telnet. destruct (c_tn s); brk; try apply P; repeat split.
Qed.
Lemma receive_fields l : forall s, c_cmd (receive l s) = c_cmd s /\ c_status (receive l s) = c_status s /\ c_sense (receive l s) = c_sense s.
Proof. induction l as [|b l IH]; intros s; [repeat split|]. cbn [receive]. destruct (_ <? _); [|repeat split]. destruct (telnet_fields b s) as (A & B & C). destruct (IH (telnet b s)) as (A' & B' & C'). repeat split; congruence. Qed.
Lemma accept_q s : queue_ok s -> queue_ok (accept s).
Proof. intros D. unfold accept. destruct (c_cons s); [exact D|]. destruct D as (L & _). unfold queue_ok. cbn. split; [exact L|]. repeat split; lia. Qed.
Lemma net_okd conn inp s : okd s -> okd (net conn inp s).
Proof.
  intros [A B C D _]. unfold net. set (s1 := if conn then accept s else s).
  assert (S1 : okd s1). { unfold s1. destruct conn; [|apply okd_mk; assumption]. pose proof (accept_q s D) as D'. unfold accept in *. destruct (c_cons s); apply okd_mk; assumption. }
  destruct (flush_keep s1) as (K & F1 & F2 & F3 & _). destruct S1 as [A1 B1 C1 D1 _]. pose proof (sameq_ok _ _ K D1) as D2.
  destruct (c_cons s); [|apply okd_mk; congruence || assumption].
  destruct inp as [[|b l]|].
  - apply okd_mk; cbn; congruence || assumption.
  - destruct (receive_fields (b :: l) (flush s1)) as (R1 & R2 & R3). apply okd_mk; rewrite ?R1, ?R2, ?R3; try congruence. apply receive_q. exact D2.
  - apply okd_mk; congruence || assumption.
Qed.
Lemma in_okd s : okd s -> match in_char s with
  | Ok (s', x) => okd s' /\ ~ undefined_take s /\ (exists n, queue s' = skipn n (queue s)) /\ c_st s' = c_st s /\ c_cmd s' = c_cmd s /\ c_iflg s' = c_iflg s
  | UB => undefined_take s | NoFuel => False end.
Proof.
  intros O. pose proof O as [A B C D _]. unfold undefined_take.
  destruct (c_iflg s) eqn:F; [|rewrite in_none by (left; exact F); split; [exact O|]; split; [intros [X _]; discriminate|]; split; [exists 0%nat; reflexivity|repeat split; exact F]].
  destruct (queue s) as [|c q] eqn:Q.
  - rewrite in_none by (right; apply queue_nil; assumption). split; [exact O|]. split; [intros [_ []]|]. split; [exists 0%nat; exact Q|repeat split; exact F].
  - destruct (in_q s D F c q Q) as (P1 & P2 & P3). destruct (in_char s) as [[s' x]| |] eqn:E.
    + destruct (P1 _ _ eq_refl) as (w & _ & _ & R & Q' & D' & S'). split; [subst s'; apply okd_mk; assumption|]. split; [intros [_ X]; contradiction|].
      split; [exists 1%nat; exact Q'|subst s'; repeat split; exact F].
    + split; [reflexivity|]. intros R. destruct (P2 R) as [r X]. discriminate.
    + destruct (Z_lt_dec c 0) as [R|R]; [discriminate (P3 ltac:(lia))|]. destruct (Z_lt_dec c 128) as [R'|R']; [destruct (P2 ltac:(lia)) as [r X]; discriminate|discriminate (P3 ltac:(lia))].
Qed.
Lemma func0 s : fst (func s 0) = s.
Proof. unfold func. destruct (c_cons s) eqn:E; cbn; reflexivity. Qed.
Lemma func0_ready s : bit (snd (func s 0)) 64 = c_cons s && ((c_home s && negb (c_oflg s) && negb (c_ocr s)) || (0 <? c_ilen s)).
Proof. unfold func. destruct (c_cons s); [|reflexivity]. cbn. destruct (c_home s), (c_oflg s), (c_ocr s), (0 <? c_ilen s), (c_cancel s), (c_eob s), (c_attn s); reflexivity. Qed.
Lemma func0_end s : bit (snd (func s 0)) 160 = c_cons s && (negb (0 <? c_ilen s) && (c_cancel s || c_eob s)).
Proof. unfold func. destruct (c_cons s); [|reflexivity]. cbn. destruct (c_home s), (c_oflg s), (c_ocr s), (0 <? c_ilen s), (c_cancel s), (c_eob s), (c_attn s); reflexivity. Qed.
Lemma func0_cancel s : bit (snd (func s 0)) 128 = c_cons s && (negb (0 <? c_ilen s) && c_cancel s).
Proof. unfold func. destruct (c_cons s); [|reflexivity]. cbn. destruct (c_home s), (c_oflg s), (c_ocr s), (0 <? c_ilen s), (c_cancel s), (c_eob s), (c_attn s); reflexivity. Qed.
Lemma func0_attn s : bit (snd (func s 0)) 2 = c_cons s && c_attn s.
Proof. unfold func. destruct (c_cons s); [|reflexivity]. cbn. destruct (c_home s), (c_oflg s), (c_ocr s), (0 <? c_ilen s), (c_cancel s), (c_eob s), (c_attn s); reflexivity. Qed.
(** poll_callback in terms of the flags. *)
Definition poll_tail (s0 s : dev) : dev :=
  let s := if c_cons s0 && (negb (0 <? c_ilen s0) && (c_cancel s0 || c_eob s0)) then
      set_req true (set_done true (set_end true (if c_cons s0 && (negb (0 <? c_ilen s0) && c_cancel s0) then set_ocr true (or_status SNS_UNITEXP s) else s))) else s in
  if c_cons s0 && c_attn s0 then set_req true s else s.
Lemma poll_eq s : poll_cb s =
  if negb (bit (c_cmd s) 1) && (c_cons s && ((c_home s && negb (c_oflg s) && negb (c_ocr s)) || (0 <? c_ilen s))) then
    let* (s1, x) := in_char s in
    Ok (poll_tail s (set_req true (set_rdyd true (set_data (Z.land (match x with Some w => w | None => c_data s1 end) 255) s1))))
  else Ok (poll_tail s s).
Proof.
  unfold poll_cb. pose proof (func0 s) as E. pose proof (func0_ready s) as R. pose proof (func0_end s) as N. pose proof (func0_cancel s) as C. pose proof (func0_attn s) as T.
  destruct (func s 0) as [s1 out]. cbn [fst snd] in *. subst s1. rewrite R, N, C, T. destruct (negb (bit (c_cmd s) 1) && _); cbn [bind].
  - destruct (in_char s) as [[s1 [w|]]| |]; reflexivity.
  - reflexivity.
Qed.
Lemma poll_tail_q s0 q s : okq q s -> okq q (poll_tail s0 s).
Proof. intros H. unfold poll_tail. brk; auto 10 with oq. Qed.
Lemma poll_tail_queue s0 s : queue (poll_tail s0 s) = queue s.
Proof. unfold poll_tail. brk; reflexivity. Qed.
Lemma step_act a s x : is_byte a -> okd s ->
  match astep a s x with
  | Ok s' => okd s' /\ ~ undefined_act s x /\ (exists n m, queue s' = skipn n (queue s) ++ m)
  | UB => undefined_act s x | NoFuel => False end.
Proof.
  intros A O. assert (SK : forall s' : dev, queue s' = queue s -> exists n m, queue s' = skipn n (queue s) ++ m) by (intros s' E; exists 0%nat, []; rewrite app_nil_r; exact E).
  assert (SKN : forall s' : dev, queue s' = [] -> exists n m, queue s' = skipn n (queue s) ++ m) by (intros s' E; exists (length (queue s)), []; rewrite skipn_all; exact E).
  destruct x as [t bo bi| | |conn inp|tin| |ch]; cbn [astep undefined_act].
  - pose proof (step_good a s t bo bi A O) as G. destruct (dev_step a s t bo bi) as [[[s' t'] b']| |]; cbn [bind good fst] in *; try exact G.
    destruct G as (G & _ & N). split; [exact (okq_okd _ _ G)|]. split; [exact N|]. destruct (ok_is _ _ G); auto.
  - destruct (c_poll s) eqn:PL; [|split; [exact O|]; split; [intros [X _]; discriminate|auto]].
    rewrite poll_eq. destruct (negb (bit (c_cmd s) 1) && _) eqn:B.
    + apply andb_true_iff in B. destruct B as [B1 B2]. apply andb_true_iff in B2. destruct B2 as [B2 B3]. apply negb_true_iff in B1.
      pose proof (in_okd s O) as I. destruct (in_char s) as [[s1 x]| |]; cbn [bind].
      * destruct I as (O1 & N & (n & Q) & _). split; [apply (okq_okd (queue s1)), poll_tail_q; auto with oq|]. split; [tauto|].
        exists n, []. rewrite poll_tail_queue. change (queue s1 = skipn n (queue s) ++ []). rewrite app_nil_r. exact Q.
      * repeat split; assumption || exact (proj1 I) || exact (proj2 I).
      * exact I.
    + split; [apply (okq_okd (queue s)), poll_tail_q; exact O|]. split; [|apply SK, poll_tail_queue]. intros (_ & B1 & B2 & B3 & B4). rewrite B1, B2 in B. cbn in B.
      destruct (queue s) eqn:Q; [exact B4|]. assert (L : 0 < c_ilen s). { rewrite <- (queue_len s (ok_queue _ _ O)), Q. cbn [length]. lia. }
      replace (0 <? c_ilen s) with true in B by lia. rewrite orb_true_r in B. discriminate.
  - destruct (c_pend s) as [|n]; [split; [exact O|]; split; [tauto|auto]|]. unfold send_cb. pose proof (func0 (set_pend n s)) as E. destruct (func (set_pend n s) 0) as [s1 out]. cbn [fst] in E. subst s1.
    destruct (_ && _).
    + unfold out_char. destruct (tab_ok ebcdic_to_ascii (Z.land (c_data (set_pend n s)) 255)) as [c E]; [exact (byte_land _)|]. rewrite E. cbn [bind].
      split; [apply (okq_okd (queue s)); change (queue s) with (queue (set_pend n s)); auto 10 with oq|]. split; [tauto|]. apply SK. reflexivity.
    + split; [apply (okq_okd (queue s)); auto 10 with oq|]. split; [tauto|]. apply SK. reflexivity.
  - split; [apply net_okd; exact O|]. split; [tauto|]. unfold net. set (s1 := if conn then accept s else s).
    assert (Q1 : exists n, queue s1 = skipn n (queue s)). { unfold s1, accept. destruct conn; [|exists 0%nat; reflexivity]. destruct (c_cons s); [exists 0%nat; reflexivity|]. exists (length (queue s)). rewrite skipn_all. reflexivity. }
    destruct Q1 as [n Q1]. assert (D1 : queue_ok s1). { pose proof (ok_queue _ _ O) as D. unfold s1. destruct conn; [apply accept_q|]; exact D. }
    destruct (flush_keep s1) as (K & _). pose proof (sameq_q _ _ K) as QF. pose proof (sameq_ok _ _ K D1) as DF.
    exists n. destruct (c_cons s); [|exists []; rewrite app_nil_r; congruence]. destruct inp as [[|b l]|]; [exists []; rewrite app_nil_r; etransitivity; [exact QF|exact Q1]| |exists []; rewrite app_nil_r; congruence].
    destruct (receive_q (b :: l) _ DF) as (_ & (m & E) & _). exists m. rewrite E, QF, Q1. reflexivity.
  - split; [apply (okq_okd (queue s)), oq_func; exact O|]. split; [tauto|]. destruct (ok_is _ _ (oq_func _ tin s O)); auto.
  - pose proof (in_okd s O) as I. destruct (in_char s) as [[s1 x]| |]; cbn [bind fst]; [|exact I|exact I].
    destruct I as (O1 & N & (n & Q) & _). split; [exact O1|]. split; [exact N|]. exists n, []. rewrite app_nil_r. exact Q.
  - unfold out_char. destruct (tab_ok ebcdic_to_ascii (Z.land ch 255)) as [c E]; [exact (byte_land _)|]. rewrite E. cbn [bind].
    split; [apply (okq_okd (queue s)); auto 10 with oq|]. split; [tauto|]. apply SK. reflexivity.
Qed.
Lemma fresh_okd : okd fresh. Proof. apply okd_mk; try (apply byte_const; reflexivity). unfold queue_ok. cbn [fresh c_keys c_optr c_ilen c_iptr]. split; [apply repeat_length|]. repeat split; lia. Qed.
Lemma run_okd a l : is_byte a -> forall s s', okd s -> run a s l = Ok s' -> okd s'.
Proof.
  intros A. induction l as [|x l IH]; intros s s' O E; cbn [run] in E; [injection E as <-; exact O|].
  pose proof (step_act a s x A O) as S. destruct (astep a s x) as [s1| |]; try discriminate. cbn [bind] in E. destruct S as (O1 & _). exact (IH _ _ O1 E).
Qed.
