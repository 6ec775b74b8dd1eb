(** Invariants of the window under arbitrary sequences of calls. *)
From Verif Require Import Base.Bits Tape.Model Tape.Spec Tape.Window.

(** No undefined behaviour, and [P] of the window afterwards. *)
Definition safe2 (P : win -> Prop) (r : res (tape * status)) : Prop :=
  match r with Ok (t, _) => P (t_win t) | UB => False | NoFuel => True end.
Definition safe3 {A} (P : win -> Prop) (r : res (tape * status * A)) : Prop :=
  match r with Ok (t, _, _) => P (t_win t) | UB => False | NoFuel => True end.

Section Reading.
Variable P : win -> Prop.
Hypothesis Hread : forall t d, P (t_win t) -> safe3 P (tape_read_byte t d).
Hypothesis Hpeek : forall t d, P (t_win t) -> safe3 P (tape_peek_byte t d).
Hypothesis Hback : forall t d, P (t_win t) -> safe3 P (tape_readbk_byte t d).

(** Use a byte operation: destruct its result. *)
Ltac use H t d :=
  let X := fresh "X" in
  pose proof (H t d ltac:(assumption)) as X;
  match type of X with safe3 P ?r => destruct r as [[[? ?] ?]| |] end;
  cbn [safe3 bind] in X |- *; [|contradiction|exact I].

Lemma read_bytes_safe n : forall t, P (t_win t) -> safe3 P (read_bytes n t).
Proof.
  induction n as [|n IH]; intros t H; [exact H|]. cbn [read_bytes].
  use Hread t 0. destruct s; cbn [safe3]; auto.
  specialize (IH _ X). destruct (read_bytes n t0) as [[[? ?] ?]| |]; cbn in *; auto.
Qed.
Lemma readbk_bytes_safe n : forall t, P (t_win t) -> safe3 P (readbk_bytes n t).
Proof.
  induction n as [|n IH]; intros t H; [exact H|]. cbn [readbk_bytes].
  use Hback t 0. destruct s; cbn [safe3]; auto.
  specialize (IH _ X). destruct (readbk_bytes n t0) as [[[? ?] ?]| |]; cbn in *; auto.
Qed.

Lemma read_forw_safe t : P (t_win t) -> safe2 P (tape_read_forw t).
Proof.
  intros H. unfold tape_read_forw. destruct (t_att t); cbn [negb]; [|exact H]. cbn zeta.
  destruct (t_eot _); [exact H|]. destruct (t_fmt _).
  1,2: pose proof (read_bytes_safe 4 (set_srec (set_func (set_mark (set_bot (set_parity t false) false) false) FRead)
         (Z.of_nat (cursor (t_win (set_func (set_mark (set_bot (set_parity t false) false) false) FRead))))) H) as X;
    match type of X with safe3 P ?r => destruct r as [[[t1 s1] l1]| |] end; cbn [safe3 bind] in X |- *; [|contradiction|exact I];
    destruct s1; cbn [safe2]; auto;
    destruct (word_of l1 =? 4294967295);
    [ pose proof (readbk_bytes_safe 4 (set_eot (set_lrecl t1 (word_of l1)) true) X) as Y;
      destruct (readbk_bytes _ _) as [[[? s] ?]| |]; cbn in *; auto; destruct s; cbn; auto
    | destruct (word_of l1 =? 0); cbn; auto ].
  - match goal with |- context [tape_peek_byte ?t ?d] => pose proof (Hpeek t d H) as X; destruct (tape_peek_byte t d) as [[[t1 s1] b]| |] end;
      cbn [safe3 bind] in X |- *; [|contradiction|exact I].
    destruct s1; cbn; auto. destruct (b =? p7b_mark); cbn; auto.
    pose proof (Hread (set_lrecl t1 2) b X) as Y. destruct (tape_read_byte _ _) as [[[t2 s2] b2]| |]; cbn in *; auto.
    destruct s2; cbn; auto.
  - exact H.
Qed.

Lemma read_back_safe t : P (t_win t) -> safe2 P (tape_read_back t).
Proof.
  intros H. unfold tape_read_back. destruct (t_att t); cbn [negb]; [|exact H]. cbn zeta.
  destruct (t_bot _); [exact H|]. destruct (t_fmt _) eqn:F.
  1,2: match goal with |- context [readbk_bytes 4 ?t] => pose proof (readbk_bytes_safe 4 t H) as X; destruct (readbk_bytes 4 t) as [[[t1 s1] l1]| |] end;
    cbn [safe3 bind] in X |- *; [|contradiction|exact I];
    destruct s1; cbn [safe2]; auto;
    destruct (word_of (rev l1) =? 4294967295); [exact X|].
  - destruct (Z.odd (word_of (rev l1))).
    + pose proof (Hback (set_lrecl t1 (word_of (rev l1))) 0 X) as Y.
      destruct (tape_readbk_byte _ _) as [[[? ?] ?]| |]; cbn in *; auto. destruct (word_of (rev l1) =? 0); cbn; auto.
    + cbn [bind]. destruct (word_of (rev l1) =? 0); cbn; auto.
  - cbn [bind]. destruct (word_of (rev l1) =? 0); cbn; auto.
  - match goal with |- context [tape_readbk_byte ?t ?d] => pose proof (Hback t d H) as X; destruct (tape_readbk_byte t d) as [[[t1 s1] b]| |] end;
      cbn [safe3 bind] in X |- *; [|contradiction|exact I].
    destruct s1; cbn; auto. destruct (b =? p7b_mark); cbn; auto.
    pose proof (Hread (set_lrecl t1 0) b X) as Y. destruct (tape_read_byte _ _) as [[[t2 s2] b2]| |]; cbn in *; auto.
  - exact H.
Qed.

Lemma read_frame_safe t d : P (t_win t) -> safe3 P (tape_read_frame t d).
Proof.
  intros H. unfold tape_read_frame. destruct (t_att t); cbn [negb]; [|exact H]. destruct (t_mark t); [exact H|].
  assert (G1 : safe3 P (if t_orecl t <=? t_lrecl t then Ok (t, SEob, d) else
      let* x := tape_read_byte t d in let '(t1, s, b) := x in
      Ok (set_frame (set_lrecl t1 (u32 (t_lrecl t1 + 1))) (t_frame t1 + (if t_hi t then 1 else 2)), s, b))).
  { destruct (t_orecl t <=? t_lrecl t); [exact H|]. use Hread t d. exact X. }
  assert (G2 : safe3 P (if t_lrecl t =? 0 then Ok (t, SEob, d) else
      let* x := tape_readbk_byte t d in let '(t1, s, b) := x in
      Ok (set_frame (set_lrecl t1 (u32 (t_lrecl t1 - 1))) (t_frame t1 - (if t_hi t then 1 else 2)), s, b))).
  { destruct (t_lrecl t =? 0); [exact H|]. use Hback t d. exact X. }
  destruct (t_fmt t), (t_func t); try exact H; try exact G1; try exact G2.
  - destruct (t_lrecl t =? 2); [exact H|]. use Hread t d. destruct ((t_lrecl t0 =? 1) && irg z); [|exact X].
    use Hback t0 z. exact X0.
  - destruct (t_lrecl t =? 2); [exact H|]. use Hback t d. exact X.
Qed.

Lemma skip_forw_safe n : forall t d, P (t_win t) ->
  match skip_forw n t d with Ok (t', _) => P (t_win t') | UB => False | NoFuel => True end.
Proof.
  induction n as [|n IH]; intros t d H; cbn [skip_forw]; destruct (t_lrecl t <? t_orecl t); auto.
  pose proof (read_frame_safe t d H) as X. destruct (tape_read_frame t d) as [[[? ?] ?]| |]; cbn in *; auto. apply IH. exact X.
Qed.
Lemma skip_back_safe n : forall t d, P (t_win t) ->
  match skip_back n t d with Ok (t', _) => P (t_win t') | UB => False | NoFuel => True end.
Proof.
  induction n as [|n IH]; intros t d H; cbn [skip_back]; destruct (0 <? t_lrecl t); auto.
  pose proof (read_frame_safe t d H) as X. destruct (tape_read_frame t d) as [[[? ?] ?]| |]; cbn in *; auto. apply IH. exact X.
Qed.
Lemma skip_p7b_safe n : forall t d, P (t_win t) -> safe2 P (skip_p7b n t d).
Proof.
  induction n as [|n IH]; intros t d H; cbn [skip_p7b]; destruct (t_lrecl t =? 2); auto; try exact I.
  pose proof (read_frame_safe t d H) as X. destruct (tape_read_frame t d) as [[[? s] ?]| |]; cbn in *; auto.
  destruct s; cbn; auto.
Qed.

Lemma finish_rec_safe_gen n j t : P (t_win t) ->
  (t_func t = FWrite ->
   safe2 P (let* t1 := match t_fmt t with
                   | TAP => if Z.odd (t_lrecl t) then
                              let* y := tape_write_byte t 0 in let '(t', _) := y in Ok t'
                            else Ok t
                   | _ => Ok t
                   end in
        let l := bytes_of (t_lrecl t1) in
        let* y := write_prevs t1 l in
        let '(t2, s2) := y in
        match s2 with
        | SOk =>
          let* z := write_bytes t2 l in
          let '(t3, s3) := z in
          match s3 with SOk => Ok (finish_end t3) | _ => Ok (t3, s3) end
        | _ => Ok (t2, s2)
        end)) -> safe2 P (tape_finish_rec n j t).
Proof.
  intros H HW. unfold tape_finish_rec. destruct (t_att t); cbn [negb]; [|exact H].
  destruct (t_fmt t) eqn:F.
  1,2: destruct (t_mark t); [exact H|]; destruct (t_func t) eqn:FU; try exact H;
    [ pose proof (skip_forw_safe n t j H) as X; destruct (skip_forw n t j) as [[t1 d1]| |]; cbn [bind] in *; auto
    | apply HW; reflexivity
    | pose proof (skip_back_safe n t j H) as X; destruct (skip_back n t j) as [[t1 d1]| |]; cbn [bind] in *; auto;
      pose proof (readbk_bytes_safe 4 t1 X) as Y; destruct (readbk_bytes 4 t1) as [[[t3 s3] l3]| |]; cbn in *; auto;
      destruct s3; cbn; auto ].
  1,2: assert (G : forall t2, P (t_win t2) -> safe2 P (let* y := read_bytes 4 t2 in let '(t3, s, l) := y in
        match s with SOk => Ok (finish_end (set_lrecl t3 (word_of l))) | _ => Ok (t3, s) end))
    by (intros t2 H2; pose proof (read_bytes_safe 4 t2 H2) as Y; destruct (read_bytes 4 t2) as [[[t3 s3] l3]| |]; cbn in *; auto;
        destruct s3; cbn; auto);
    destruct (t_fmt t1); cbn [bind]; try (apply G; exact X);
    destruct (Z.odd (t_orecl t1)); cbn [bind]; try (apply G; exact X);
    use Hread t1 0; apply G; exact X0.
  - destruct (t_mark t); [exact H|]. destruct (t_func t); try exact H;
      (pose proof (skip_p7b_safe n t j H) as X; destruct (skip_p7b n t j) as [[t1 s1]| |]; cbn in *; auto; destruct s1; cbn; auto).
  - exact H.
Qed.
End Reading.

Section Writing.
Variable P : win -> Prop.
Hypothesis Hread : forall t d, P (t_win t) -> safe3 P (tape_read_byte t d).
Hypothesis Hpeek : forall t d, P (t_win t) -> safe3 P (tape_peek_byte t d).
Hypothesis Hback : forall t d, P (t_win t) -> safe3 P (tape_readbk_byte t d).
Hypothesis Hwrite : forall t b, P (t_win t) -> safe2 P (tape_write_byte t b).
Hypothesis Hprev : forall t b, P (t_win t) -> safe2 P (tape_write_prev t b).
Hypothesis Hrew : forall t, P (t_win t) -> P (t_win (fst (tape_start_rewind t))).

Lemma write_bytes_safe l : forall t, P (t_win t) -> safe2 P (write_bytes t l).
Proof.
  induction l as [|b l IH]; intros t H; [exact H|]. cbn [write_bytes].
  pose proof (Hwrite t b H) as X. destruct (tape_write_byte t b) as [[t1 s]| |]; cbn in *; auto. destruct s; cbn; auto.
Qed.
Lemma write_prevs_safe l : forall t, P (t_win t) -> safe2 P (write_prevs t l).
Proof.
  induction l as [|b l IH]; intros t H; [exact H|]. cbn [write_prevs].
  pose proof (Hprev t b H) as X. destruct (tape_write_prev t b) as [[t1 s]| |]; cbn in *; auto. destruct s; cbn; auto.
Qed.
Lemma write_start_safe t : P (t_win t) -> safe2 P (tape_write_start t).
Proof.
  intros H. unfold tape_write_start. destruct (t_att t); cbn [negb]; [|exact H]. destruct (t_ring t); cbn [negb]; [|exact H].
  cbn zeta. destruct (t_fmt _); try exact H;
  match goal with |- context [write_bytes ?t ?l] => pose proof (write_bytes_safe l t H) as X; destruct (write_bytes t l) as [[t1 s]| |] end;
  cbn in *; auto; destruct s; cbn; auto.
Qed.
Lemma write_mark_safe t : P (t_win t) -> safe2 P (tape_write_mark t).
Proof.
  intros H. unfold tape_write_mark. destruct (t_att t); cbn [negb]; [|exact H]. destruct (t_ring t); cbn [negb]; [|exact H].
  cbn zeta. destruct (t_fmt _); try exact H;
  match goal with |- context [write_bytes ?t ?l] => pose proof (write_bytes_safe l t H) as X; destruct (write_bytes t l) as [[t1 s]| |] end;
  cbn in *; auto; destruct s; cbn; auto.
Qed.
Lemma write_frame_safe t b : P (t_win t) -> safe2 P (tape_write_frame t b).
Proof.
  intros H. unfold tape_write_frame. destruct (t_att t); cbn [negb]; [|exact H]. apply Hwrite. exact H.
Qed.
Lemma finish_rec_safe n j t : P (t_win t) -> safe2 P (tape_finish_rec n j t).
Proof.
  intros H. apply finish_rec_safe_gen; auto. intros _.
  assert (G : forall t1, P (t_win t1) -> safe2 P (let l := bytes_of (t_lrecl t1) in
        let* y := write_prevs t1 l in
        let '(t2, s2) := y in
        match s2 with
        | SOk =>
          let* z := write_bytes t2 l in
          let '(t3, s3) := z in
          match s3 with SOk => Ok (finish_end t3) | _ => Ok (t3, s3) end
        | _ => Ok (t2, s2)
        end)).
  { intros t1 H1. cbn zeta. pose proof (write_prevs_safe (bytes_of (t_lrecl t1)) t1 H1) as X.
    destruct (write_prevs t1 _) as [[t2 s2]| |]; cbn [bind safe2] in *; auto. destruct s2; cbn [safe2]; auto.
    pose proof (write_bytes_safe (bytes_of (t_lrecl t1)) t2 X) as Y.
    destruct (write_bytes t2 _) as [[t3 s3]| |]; cbn [bind safe2] in *; auto. destruct s3; cbn; auto. }
  destruct (t_fmt t); cbn [bind]; try (apply G; exact H).
  destruct (Z.odd (t_lrecl t)); cbn [bind]; try (apply G; exact H).
  pose proof (Hwrite t 0 H) as X. destruct (tape_write_byte t 0) as [[t1 s]| |]; cbn [bind safe2] in *; auto.
Qed.

Lemma no_data_safe r : safe2 P r -> safe3 P (no_data r).
Proof. destruct r as [[? ?]| |]; cbn; auto. Qed.
Lemma rewind_frames_win t n : t_win (fst (tape_rewind_frames t n)) = t_win t.
Proof. unfold tape_rewind_frames. destruct (t_att t); cbn; [|reflexivity]. destruct (t_frame t <? n); reflexivity. Qed.

Lemma do_call_safe t c : P (t_win t) -> safe3 P (do_call t c).
Proof.
  intros H. destruct c; cbn [do_call]; try (apply no_data_safe).
  - apply write_start_safe; auto.
  - apply write_mark_safe; auto.
  - apply write_mark_safe; auto.
  - apply write_frame_safe; auto.
  - apply read_forw_safe; auto.
  - apply read_back_safe; auto.
  - apply read_frame_safe; auto.
  - apply finish_rec_safe; auto.
  - pose proof (Hrew t H) as X. destruct (tape_start_rewind t). exact X.
  - pose proof (rewind_frames_win t n) as X. destruct (tape_rewind_frames t n). cbn in *. rewrite X. exact H.
Qed.
Lemma do_calls_safe l : forall t, P (t_win t) ->
  match do_calls t l with Ok (t', _) => P (t_win t') | UB => False | NoFuel => True end.
Proof.
  induction l as [|c l IH]; intros t H; [exact H|]. cbn [do_calls].
  pose proof (do_call_safe t c H) as X. destruct (do_call t c) as [[[t1 s] d]| |]; cbn in *; auto.
  specialize (IH t1 X). destruct (do_calls t1 l) as [[t2 ss]| |]; cbn in *; auto.
Qed.
End Writing.

(** *** The byte operations keep the window in order, whatever its state *)
Lemma flush_none_ro w : flush w = None -> w_dirty w = true /\ w_ro w = true.
Proof. unfold flush. destruct (w_dirty w), (w_ro w); try discriminate. auto. Qed.

(** [stays]: the window is in order, its access mode is the same, and a file that is read only is unchanged. *)
Definition stays (w : win) (w' : win) : Prop :=
  win_ok w' /\ w_ro w' = w_ro w /\ (w_ro w = true -> w_file w' = w_file w).
Ltac sty := refine (conj _ (conj _ _)).
Lemma stays_refl w : win_ok w -> stays w w.
Proof. intros H. sty; [exact H|reflexivity|reflexivity]. Qed.

Lemma ro_content w : win_ok w -> can_flush w -> w_ro w = true -> content w = w_file w.
Proof. intros H C R. unfold content. rewrite (C R). reflexivity. Qed.
Lemma flush_can w w1 : flush w = Some w1 -> can_flush w.
Proof. unfold flush, can_flush. destruct (w_dirty w), (w_ro w); intros; try discriminate; reflexivity. Qed.

Lemma advance_none w : advance_win w = None -> flush w = None.
Proof. unfold advance_win. destruct (Nat.leb (w_lb w) (w_pb w) || Nat.eqb (w_lb w) 0); [|discriminate]. destruct (flush w); [discriminate|reflexivity]. Qed.

Lemma advance_stays w : win_ok w -> advance_win w = None \/
  exists w' e, advance_win w = Some (w', e) /\ stays w w' /\ (e = false -> (w_pb w' < w_lb w')%nat).
Proof.
  intros H. destruct (advance_win w) as [[w' e]|] eqn:E; [right|left; reflexivity].
  exists w', e. split; [reflexivity|].
  assert (Hc : can_flush w \/ (w_pb w < w_lb w)%nat).
  { unfold advance_win in E. destruct (Nat.leb (w_lb w) (w_pb w) || Nat.eqb (w_lb w) 0) eqn:G.
    - destruct (flush w) eqn:Fl; [|discriminate]. left. eapply flush_can. exact Fl.
    - right. apply orb_false_iff in G as [G _]. apply Nat.leb_gt in G. exact G. }
  destruct Hc as [C|G].
  - destruct (advance_ok w H C) as [w'' [E' [O' [Co [Cu [Ro [Cf [Lt [Dd Fi]]]]]]]]]. rewrite E in E'. injection E' as -> ->.
    split; [|intros X; apply negb_false_iff, Nat.ltb_lt in X; exact (Lt X)].
    sty; [exact O'|exact Ro|]. intros R. rewrite Fi. rewrite (ro_content w H C R). destruct (Nat.leb _ _); reflexivity.
  - unfold advance_win in E.
    destruct (Nat.leb_spec (w_lb w) (w_pb w)); [lia|]. destruct (Nat.eqb_spec (w_lb w) 0); [lia|]. cbn [orb] in E.
    injection E as <- <-. split; [apply stays_refl; exact H|intros; exact G].
Qed.

Lemma buf_at_ok w i : win_ok w -> (i < BS)%nat -> exists b, buf_at w i = Ok b.
Proof.
  intros [H1 _] Hi. unfold buf_at. destruct (nth_error (w_buf w) i) eqn:E; [eauto|].
  apply nth_error_None in E. lia.
Qed.

Lemma win_move w p : win_ok w -> (p <= w_lb w)%nat ->
  win_ok (Win (w_file w) (w_ro w) (w_pos w) p (w_lb w) (w_dirty w) (w_buf w)).
Proof. intros [H1 [H2 [H3 [H4 H5]]]] Hp. okk; [exact H1|exact Hp|exact H3|exact H4|exact H5]. Qed.

Definition keep3 {A} (w : win) (r : res (tape * status * A)) : Prop := safe3 (stays w) r.

Lemma read_byte_stays t d : win_ok (t_win t) -> safe3 (stays (t_win t)) (tape_read_byte t d).
Proof.
  intros H. unfold tape_read_byte. destruct (t_att t); cbn [negb]; [|apply stays_refl; exact H].
  destruct (advance_stays _ H) as [E|[w' [e [E [[O' [Ro Fi]] Lt]]]]]; rewrite E; [apply stays_refl; exact H|].
  destruct e; cbn [safe3 t_win set_eot set_win]; [sty; [exact O'|exact Ro|exact Fi]|].
  specialize (Lt eq_refl). pose proof O' as [H1 [H2 [H3 _]]].
  destruct (buf_at_ok w' (w_pb w') O' ltac:(lia)) as [b Eb]. rewrite Eb. cbn [bind safe3 t_win set_win].
  sty; [apply win_move; [exact O'|lia]|exact Ro|exact Fi].
Qed.
Lemma peek_byte_stays t d : win_ok (t_win t) -> safe3 (stays (t_win t)) (tape_peek_byte t d).
Proof.
  intros H. unfold tape_peek_byte. destruct (t_att t); cbn [negb]; [|apply stays_refl; exact H].
  destruct (advance_stays _ H) as [E|[w' [e [E [[O' [Ro Fi]] Lt]]]]]; rewrite E; [apply stays_refl; exact H|].
  destruct e; cbn [safe3 t_win set_eot set_win]; [sty; [exact O'|exact Ro|exact Fi]|].
  specialize (Lt eq_refl). pose proof O' as [H1 [H2 [H3 _]]].
  destruct (buf_at_ok w' (w_pb w') O' ltac:(lia)) as [b Eb]. rewrite Eb. cbn [bind safe3 t_win set_win].
  sty; [exact O'|exact Ro|exact Fi].
Qed.
Lemma flush_stays w w1 : win_ok w -> flush w = Some w1 -> stays w w1 /\ w_dirty w1 = false /\ content w1 = content w /\
  w_file w1 = content w /\ w_pos w1 = w_pos w /\ w_pb w1 = w_pb w /\ w_lb w1 = w_lb w /\ w_buf w1 = w_buf w.
Proof.
  intros H Fl. pose proof (flush_can _ _ Fl) as C.
  destruct (flush_some w H C) as [w2 [Fl2 [O1 [D1 [F1 [C1 [P1 [B1 [L1 [R1 BB]]]]]]]]]].
  rewrite Fl in Fl2. injection Fl2 as <-.
  split; [sty; [exact O1|exact R1|]|refine (conj _ (conj _ (conj _ (conj _ (conj _ (conj _ _)))))); assumption].
  intros R. rewrite F1. apply ro_content; assumption.
Qed.
Lemma back_step_stays w t w2 : stays w w2 -> (0 < w_pb w2)%nat ->
  safe3 (stays w)
    match w_pb w2 with
    | O => UB
    | S p =>
      let* b := buf_at w2 p in
      Ok (set_win t (Win (w_file w2) (w_ro w2) (w_pos w2) p (w_lb w2) (w_dirty w2) (w_buf w2)), SOk, b)
    end.
Proof.
  intros [O1 [R1 F1]] HP. pose proof O1 as [H1 [H2 [H3 _]]]. destruct (w_pb w2) as [|p]; [lia|].
  destruct (buf_at_ok w2 p O1 ltac:(lia)) as [b Eb]. rewrite Eb. cbn [bind safe3 t_win set_win].
  sty; [apply win_move; [exact O1|lia]|exact R1|exact F1].
Qed.
Lemma readbk_byte_stays t d : win_ok (t_win t) -> safe3 (stays (t_win t)) (tape_readbk_byte t d).
Proof.
  intros H. pose proof BS_pos as BSp. destruct (t_att t) eqn:A; [|unfold tape_readbk_byte; rewrite A; apply stays_refl; exact H].
  unfold tape_readbk_byte. rewrite A. cbn [negb].
  destruct (Nat.eqb_spec (w_pb (t_win t)) 0) as [P0|P0]; cbn [orb].
  2:{ pose proof H as [H1 [H2 [H3 [H4 H5]]]]. destruct (Nat.eqb_spec (w_lb (t_win t)) 0); [lia|].
      destruct (w_pb (t_win t)) as [|p] eqn:P; [lia|]. destruct (buf_at_ok _ p H ltac:(lia)) as [b Eb].
      rewrite Eb. cbn [bind safe3 t_win set_win]. sty; [apply win_move; [exact H|lia]|reflexivity|reflexivity]. }
  destruct (flush (t_win t)) as [w1|] eqn:Fl; [|apply stays_refl; exact H].
  destruct (flush_stays _ _ H Fl) as [[O1 [R1 F1]] [D1 [C1 [FC [Pp [Pb [Lb Bf]]]]]]].
  destruct (t_bot t); [sty; [exact O1|exact R1|exact F1]|].
  destruct (Nat.eqb_spec (w_pos w1) 0) as [Z0|Z0].
  { destruct (buf_at_ok w1 (w_pb w1) O1 ltac:(lia)) as [b Eb]. rewrite Eb. cbn [bind safe3 t_win set_win set_bot].
    pose proof O1 as [H1 [H2 [H3 [H4 H5]]]]. sty; [okk; [exact H1|apply Nat.le_refl|apply Nat.le_0_l|exact H4|intros _; reflexivity]|exact R1|exact F1]. }
  pose proof O1 as [H1 [H2 [H3 [H4 H5]]]].
  destruct (Nat.ltb_spec (w_pos w1) BS) as [HB|HB].
  - destruct (fill_ok w1 0 H1 D1 ltac:(lia)) as [FO [FCt [FP [FB [FL [FD [FR FF]]]]]]].
    apply back_step_stays; cbn [w_pb]; [|lia]. pose proof (win_move _ (w_pos w1) FO ltac:(rewrite FL; lia)) as M.
    sty; [exact M|exact (eq_trans FR R1)|intros X; exact (eq_trans FF (F1 X))].
  - destruct (fill_ok w1 (w_pos w1 - BS) H1 D1 ltac:(lia)) as [FO [FCt [FP [FB [FL [FD [FR FF]]]]]]].
    apply back_step_stays; cbn [w_pb]; [|rewrite FL; lia]. pose proof (win_move _ _ FO (Nat.le_refl _)) as M.
    sty; [exact M|exact (eq_trans FR R1)|intros X; exact (eq_trans FF (F1 X))].
Qed.

Lemma write_byte_stays t b : win_ok (t_win t) -> safe2 (stays (t_win t)) (tape_write_byte t b).
Proof.
  intros H. unfold tape_write_byte. destruct (t_att t); cbn [negb]; [|apply stays_refl; exact H].
  pose proof BS_pos as BSp.
  destruct (Nat.leb_spec BS (w_pb (t_win t))) as [Hge|Hlt].
  - destruct (flush (t_win t)) as [w1|] eqn:Fl; [|apply stays_refl; exact H].
    destruct (flush_stays _ _ H Fl) as [[O1 [R1 F1]] [D1 [C1 [FC [Pp [Pb [Lb Bf]]]]]]].
    pose proof O1 as [H1 [H2 [H3 [H4 H5]]]].
    cbn [w_pb w_lb w_buf w_file w_ro w_pos]. destruct (Nat.ltb_spec 0 (length (w_buf w1))); [|lia].
    cbn [safe2 t_win set_win].
    assert (HP : ((if w_dirty (t_win t) then w_pos (t_win t) + w_lb (t_win t) else w_pos (t_win t)) <= length (w_file w1))%nat).
    { destruct (w_dirty (t_win t)) eqn:D; [|lia]. rewrite FC. apply content_len. exact H. }
    destruct (Nat.ltb_spec 0 1); [|lia].
    sty; [okk; [rewrite upd_length; exact H1|apply Nat.le_refl|lia|exact HP|discriminate]|exact R1|exact F1].
  - pose proof H as [H1 _]. destruct (Nat.ltb_spec (w_pb (t_win t)) (length (w_buf (t_win t)))); [|lia].
    destruct (write_inside _ b H Hlt) as [O1 _]. sty; [exact O1|reflexivity|reflexivity].
Qed.

Lemma write_prev_stays t b : win_ok (t_win t) -> safe2 (stays (t_win t)) (tape_write_prev t b).
Proof.
  intros H. unfold tape_write_prev. destruct (t_att t); cbn [negb]; [|apply stays_refl; exact H].
  pose proof BS_val as BSv. pose proof H as [H1 [H2 [H3 [H4 H5]]]].
  destruct ((0 <=? t_srec t - Z.of_nat (w_pos (t_win t))) && (t_srec t - Z.of_nat (w_pos (t_win t)) <? Z.of_nat BS)) eqn:E.
  - apply andb_true_iff in E as [E1 E2]. apply Z.leb_le in E1. apply Z.ltb_lt in E2.
    set (i := Z.to_nat (t_srec t - Z.of_nat (w_pos (t_win t)))).
    assert (Hi : (i < BS)%nat) by (unfold i; lia).
    destruct (Nat.ltb_spec i (length (w_buf (t_win t)))); [|lia]. cbn [safe2 t_win set_win set_srec].
    sty; [okk; [rewrite upd_length; exact H1| | |exact H4|discriminate]|reflexivity|reflexivity];
      destruct (Nat.ltb_spec (w_lb (t_win t)) i); lia.
  - destruct (w_ro (t_win t)) eqn:R; cbn [orb]; [apply stays_refl; exact H|].
    destruct (Z.ltb_spec (t_srec t) 0); [apply stays_refl; exact H|]. cbn [safe2 t_win set_win set_srec].
    set (q := Z.to_nat (t_srec t)) in *.
    assert (Hq : (q < w_pos (t_win t) \/ w_pos (t_win t) + BS <= q)%nat).
    { apply andb_false_iff in E. rewrite Z.leb_gt, Z.ltb_ge in E. unfold q. lia. }
    assert (HL : (length (w_file (t_win t)) <= length (overwrite (w_file (t_win t)) q [b]))%nat).
    { unfold overwrite. rewrite !app_length, firstn_length, repeat_length, skipn_length. cbn [length]. lia. }
    sty; [okk; [exact H1|exact H2|exact H3|lia|]|exact (eq_sym R)|intros X; rewrite R in X; discriminate].
    intros D. rewrite (H5 D). pose proof (ok_slice _ H D) as HS.
    apply ext_eq. intros i. rewrite !nth_firstn. destruct (Nat.ltb_spec i (w_lb (t_win t))); [|reflexivity].
    rewrite !nth_skipn. unfold overwrite. rewrite nth_app, firstn_length, nth_firstn.
    destruct (Nat.ltb_spec (w_pos (t_win t) + i) (Nat.min q (length (w_file (t_win t))))).
    { destruct (Nat.ltb_spec (w_pos (t_win t) + i) q); [reflexivity|lia]. }
    rewrite nth_app, repeat_length. destruct (Nat.ltb_spec (w_pos (t_win t) + i - Nat.min q (length (w_file (t_win t)))) (q - length (w_file (t_win t)))); [lia|].
    rewrite nth_app. cbn [length].
    destruct (Nat.ltb_spec (w_pos (t_win t) + i - Nat.min q (length (w_file (t_win t))) - (q - length (w_file (t_win t)))) 1); [lia|].
    rewrite nth_skipn. f_equal. lia.
Qed.

(** *** Every sequence of calls *)
Definition kept (r : bool) (f : list Z) (w : win) : Prop := win_ok w /\ w_ro w = r /\ (r = true -> w_file w = f).

Lemma kept_stays r f w w' : kept r f w -> stays w w' -> kept r f w'.
Proof. intros [H [R F]] [H' [R' F']]. sty; [exact H'|congruence|]. intros X. rewrite F' by congruence. apply F. exact X. Qed.

Lemma rewind_kept r f t : kept r f (t_win t) -> kept r f (t_win (fst (tape_start_rewind t))).
Proof.
  intros K. pose proof K as [H [R F]]. unfold tape_start_rewind. destruct (flush (t_win t)) as [w1|] eqn:Fl; [|exact K].
  destruct (flush_stays _ _ H Fl) as [S1 _]. pose proof (kept_stays _ _ _ _ K S1) as [[H1 [_ [_ [H4 _]]]] [R1 F1]]. cbn [fst t_win set_win].
  sty; [okk; [exact H1|apply Nat.le_refl|apply Nat.le_0_l|apply Nat.le_0_l|intros _; reflexivity]|exact R1|exact F1].
Qed.

Lemma calls_kept r f l t : kept r f (t_win t) ->
  match do_calls t l with Ok (t', _) => kept r f (t_win t') | UB => False | NoFuel => True end.
Proof.
  assert (L3 : forall A (t : tape) (r0 : res (tape * status * A)), kept r f (t_win t) -> safe3 (stays (t_win t)) r0 -> safe3 (kept r f) r0).
  { intros A t0 [[[t1 s] a]| |] K X; cbn in *; auto. eapply kept_stays; eauto. }
  assert (L2 : forall (t : tape) (r0 : res (tape * status)), kept r f (t_win t) -> safe2 (stays (t_win t)) r0 -> safe2 (kept r f) r0).
  { intros t0 [[t1 s]| |] K X; cbn in *; auto. eapply kept_stays; eauto. }
  apply do_calls_safe.
  - intros t0 d K. eapply L3; [exact K|]. apply read_byte_stays. apply K.
  - intros t0 d K. eapply L3; [exact K|]. apply peek_byte_stays. apply K.
  - intros t0 d K. eapply L3; [exact K|]. apply readbk_byte_stays. apply K.
  - intros t0 d K. eapply L2; [exact K|]. apply write_byte_stays. apply K.
  - intros t0 d K. eapply L2; [exact K|]. apply write_prev_stays. apply K.
  - intros t0 K. apply rewind_kept. exact K.
Qed.

(** *** Reading leaves the tape as it is *)
Definition holds (cl : bool) (c : list Z) (w : win) : Prop :=
  win_ok w /\ can_flush w /\ content w = c /\ (cl = true -> w_dirty w = false).

Lemma read_byte_holds cl c t d : holds cl c (t_win t) -> safe3 (holds cl c) (tape_read_byte t d).
Proof.
  intros K. pose proof K as [H [C [E D]]]. destruct (t_att t) eqn:A; [|unfold tape_read_byte; rewrite A; exact K].
  destruct (read_byte_ok t d A H C) as [w' [O' [C' [R' [E' [D' X]]]]]].
  assert (K' : holds cl c w').
  { refine (conj O' (conj C' (conj _ _))); [rewrite E'; exact E|intros Y; apply D', D; exact Y]. }
  destruct (nth_error _ _); destruct X as [X _]; rewrite X; exact K'.
Qed.
Lemma peek_byte_holds cl c t d : holds cl c (t_win t) -> safe3 (holds cl c) (tape_peek_byte t d).
Proof.
  intros K. pose proof K as [H [C [E D]]]. destruct (t_att t) eqn:A; [|unfold tape_peek_byte; rewrite A; exact K].
  destruct (peek_byte_ok t d A H C) as [w' [O' [C' [R' [E' [_ [D' X]]]]]]].
  assert (K' : holds cl c w').
  { refine (conj O' (conj C' (conj _ _))); [rewrite E'; exact E|intros Y; apply D', D; exact Y]. }
  destruct (nth_error _ _); rewrite X; exact K'.
Qed.
Lemma readbk_byte_holds cl c t d : holds cl c (t_win t) -> safe3 (holds cl c) (tape_readbk_byte t d).
Proof.
  intros K. pose proof K as [H [C [E D]]]. destruct (t_att t) eqn:A; [|unfold tape_readbk_byte; rewrite A; exact K].
  destruct (t_bot t) eqn:B.
  - unfold tape_readbk_byte. rewrite A, B. cbn [negb].
    destruct (Nat.eqb_spec (w_pb (t_win t)) 0) as [P0|P0]; cbn [orb].
    + destruct (flush_some _ H C) as [w1 [Fl [O1 [D1 [F1 [C1 _]]]]]]. rewrite Fl.
      refine (conj O1 (conj _ (conj _ _))); cbn; [intros _; exact D1|rewrite C1; exact E|intros _; exact D1].
    + pose proof H as [H1 [H2 [H3 [H4 H5]]]]. destruct (Nat.eqb_spec (w_lb (t_win t)) 0); [lia|].
      destruct (w_pb (t_win t)) as [|p] eqn:P; [lia|]. destruct (buf_at_ok _ p H ltac:(lia)) as [b Eb].
      rewrite Eb. cbn [bind safe3 t_win set_win]. refine (conj _ (conj C (conj E D))). apply win_move; [exact H|lia].
  - destruct (readbk_byte_ok t d A H C B) as [w' [O' [C' [R' [E' [D' X]]]]]].
    assert (K' : holds cl c w').
    { refine (conj O' (conj C' (conj _ _))); [rewrite E'; exact E|intros Y; apply D', D; exact Y]. }
    destruct (at_byte t).
    + destruct X as [b [X _]]. rewrite X. exact K'.
    + destruct X as [b [e [_ [_ [X _]]]]]. rewrite X. exact K'.
Qed.

Lemma rewind_holds cl c t : holds cl c (t_win t) -> holds cl c (t_win (fst (tape_start_rewind t))).
Proof.
  intros [H [C [E D]]]. unfold tape_start_rewind.
  destruct (flush_some _ H C) as [w1 [Fl [O1 [D1 [F1 [C1 [P1 [B1 [L1 [R1 BB]]]]]]]]]]. rewrite Fl. cbn [fst t_win set_win].
  pose proof O1 as [H1 _].
  refine (conj _ (conj _ (conj _ _))).
  - okk; [exact H1|apply Nat.le_refl|apply Nat.le_0_l|apply Nat.le_0_l|intros _; reflexivity].
  - intros _. reflexivity.
  - unfold content. cbn [w_dirty w_file]. congruence.
  - intros _. reflexivity.
Qed.

(** No call that reads turns into a write: the function in progress is not FWrite. *)
Definition reading (t : tape) : Prop := t_func t <> FWrite.
Definition keeps_f2 (t : tape) (r : res (tape * status)) : Prop :=
  match r with Ok (t', _) => t_func t' = t_func t | _ => True end.
Definition keeps_f3 {A} (t : tape) (r : res (tape * status * A)) : Prop :=
  match r with Ok (t', _, _) => t_func t' = t_func t | _ => True end.

Lemma read_byte_func t d : keeps_f3 t (tape_read_byte t d).
Proof.
  unfold tape_read_byte. destruct (t_att t); cbn; auto. destruct (advance_win (t_win t)) as [[w [|]]|]; cbn; auto.
  destruct (buf_at w (w_pb w)); cbn; auto.
Qed.
Lemma peek_byte_func t d : keeps_f3 t (tape_peek_byte t d).
Proof.
  unfold tape_peek_byte. destruct (t_att t); cbn; auto. destruct (advance_win (t_win t)) as [[w [|]]|]; cbn; auto.
  destruct (buf_at w (w_pb w)); cbn; auto.
Qed.
Lemma readbk_byte_func t d : keeps_f3 t (tape_readbk_byte t d).
Proof.
  unfold tape_readbk_byte. destruct (t_att t); cbn [negb keeps_f3]; auto.
  assert (G : forall t2 w2, t_func t2 = t_func t -> keeps_f3 t match w_pb w2 with
    | O => UB
    | S p =>
      let* b := buf_at w2 p in
      Ok (set_win t2 (Win (w_file w2) (w_ro w2) (w_pos w2) p (w_lb w2) (w_dirty w2) (w_buf w2)), SOk, b)
    end).
  { intros t2 w2 Ht. destruct (w_pb w2); [exact I|]. destruct (buf_at w2 n); cbn; auto. }
  destruct (Nat.eqb (w_pb (t_win t)) 0 || Nat.eqb (w_lb (t_win t)) 0); [|apply G; reflexivity].
  destruct (flush (t_win t)) as [w1|]; [|reflexivity]. destruct (t_bot t); [reflexivity|].
  destruct (Nat.eqb (w_pos w1) 0); [destruct (buf_at w1 (w_pb w1)); cbn; auto|]. apply G. reflexivity.
Qed.
Lemma read_bytes_func n : forall t, keeps_f3 t (read_bytes n t).
Proof.
  induction n as [|n IH]; intros t; [reflexivity|]. cbn [read_bytes].
  pose proof (read_byte_func t 0) as X. destruct (tape_read_byte t 0) as [[[t1 s] b]| |]; cbn in *; auto.
  destruct s; cbn; auto. specialize (IH t1). destruct (read_bytes n t1) as [[[? ?] ?]| |]; cbn in *; congruence.
Qed.
Lemma readbk_bytes_func n : forall t, keeps_f3 t (readbk_bytes n t).
Proof.
  induction n as [|n IH]; intros t; [reflexivity|]. cbn [readbk_bytes].
  pose proof (readbk_byte_func t 0) as X. destruct (tape_readbk_byte t 0) as [[[t1 s] b]| |]; cbn in *; auto.
  destruct s; cbn; auto. specialize (IH t1). destruct (readbk_bytes n t1) as [[[? ?] ?]| |]; cbn in *; congruence.
Qed.
Lemma read_frame_func t d : keeps_f3 t (tape_read_frame t d).
Proof.
  unfold tape_read_frame. destruct (t_att t); cbn [negb]; [|reflexivity]. destruct (t_mark t); [reflexivity|].
  pose proof (read_byte_func t d) as X. pose proof (readbk_byte_func t d) as Y.
  destruct (t_fmt t), (t_func t) eqn:F; try exact F; try (cbn; exact F);
    match goal with |- context [if ?b then _ else _] => destruct b end; try exact F; cbn [keeps_f3]; auto;
    try (destruct (tape_read_byte t d) as [[[t1 s] b]| |]; cbn [bind keeps_f3] in *; auto; cbn; congruence);
    try (destruct (tape_readbk_byte t d) as [[[t1 s] b]| |]; cbn [bind keeps_f3] in *; auto; cbn; congruence).
  destruct (tape_read_byte t d) as [[[t1 s] b]| |]; cbn [bind keeps_f3] in *; auto.
  destruct ((t_lrecl t1 =? 1) && irg b); [|cbn; congruence].
  pose proof (readbk_byte_func t1 b) as Z. destruct (tape_readbk_byte t1 b) as [[[t2 s2] b2]| |]; cbn [bind keeps_f3] in *; auto. cbn. congruence.
Qed.

Definition rd2 (r : res (tape * status)) : Prop := match r with Ok (t', _) => reading t' | _ => True end.
Definition rd3 {A} (r : res (tape * status * A)) : Prop := match r with Ok (t', _, _) => reading t' | _ => True end.

(** Destruct the next operation in the goal, keeping what it does to the function in progress. *)
Ltac nxt :=
  match goal with
  | |- context [read_bytes ?n ?t] =>
    let X := fresh "X" in pose proof (read_bytes_func n t) as X; destruct (read_bytes n t) as [[[? []] ?]| |]
  | |- context [readbk_bytes ?n ?t] =>
    let X := fresh "X" in pose proof (readbk_bytes_func n t) as X; destruct (readbk_bytes n t) as [[[? []] ?]| |]
  | |- context [tape_peek_byte ?t ?d] =>
    let X := fresh "X" in pose proof (peek_byte_func t d) as X; destruct (tape_peek_byte t d) as [[[? []] ?]| |]
  | |- context [tape_read_byte ?t ?d] =>
    let X := fresh "X" in pose proof (read_byte_func t d) as X; destruct (tape_read_byte t d) as [[[? []] ?]| |]
  | |- context [tape_readbk_byte ?t ?d] =>
    let X := fresh "X" in pose proof (readbk_byte_func t d) as X; destruct (tape_readbk_byte t d) as [[[? []] ?]| |]
  end; cbn [bind keeps_f3] in *.
Ltac rdend := cbn in *; try exact I; try congruence; unfold reading in *; cbn in *; congruence.

Lemma read_forw_rd t : reading t -> rd2 (tape_read_forw t).
Proof.
  intros H. unfold tape_read_forw. destruct (t_att t); cbn [negb]; [|exact H]. cbn zeta.
  destruct (t_eot _); [exact H|]. destruct (t_fmt _); [| | |rdend].
  1,2: nxt; try rdend; destruct (word_of l =? 4294967295); [nxt; try rdend|destruct (word_of l =? 0); rdend].
  nxt; try rdend. destruct (z =? p7b_mark); [nxt; rdend|rdend].
Qed.
Lemma read_back_rd t : reading t -> rd2 (tape_read_back t).
Proof.
  intros H. unfold tape_read_back. destruct (t_att t); cbn [negb]; [|exact H]. cbn zeta.
  destruct (t_bot _); [exact H|]. destruct (t_fmt _); [| | |rdend].
  - nxt; try rdend; destruct (word_of (rev l) =? 4294967295); [rdend|].
    destruct (Z.odd (word_of (rev l))); [nxt|cbn [bind]]; destruct (word_of (rev l) =? 0); rdend.
  - nxt; try rdend; destruct (word_of (rev l) =? 4294967295); [rdend|].
    cbn [bind]; destruct (word_of (rev l) =? 0); rdend.
  - nxt; try rdend. destruct (z =? p7b_mark); [rdend|nxt; rdend].
Qed.
Lemma skip_forw_func n : forall t d, match skip_forw n t d with Ok (t', _) => t_func t' = t_func t | _ => True end.
Proof.
  induction n as [|n IH]; intros t d; cbn [skip_forw]; destruct (t_lrecl t <? t_orecl t); auto.
  pose proof (read_frame_func t d) as X. destruct (tape_read_frame t d) as [[[t1 s] d1]| |]; cbn in *; auto.
  specialize (IH t1 d1). destruct (skip_forw n t1 d1) as [[? ?]| |]; congruence.
Qed.
Lemma skip_back_func n : forall t d, match skip_back n t d with Ok (t', _) => t_func t' = t_func t | _ => True end.
Proof.
  induction n as [|n IH]; intros t d; cbn [skip_back]; destruct (0 <? t_lrecl t); auto.
  pose proof (read_frame_func t d) as X. destruct (tape_read_frame t d) as [[[t1 s] d1]| |]; cbn in *; auto.
  specialize (IH t1 d1). destruct (skip_back n t1 d1) as [[? ?]| |]; congruence.
Qed.
Lemma skip_p7b_func n : forall t d, keeps_f2 t (skip_p7b n t d).
Proof.
  induction n as [|n IH]; intros t d; cbn [skip_p7b]; destruct (t_lrecl t =? 2); cbn; auto.
  pose proof (read_frame_func t d) as X. destruct (tape_read_frame t d) as [[[t1 s] d1]| |]; cbn in *; auto.
  destruct s; auto; specialize (IH t1 d1); destruct (skip_p7b n t1 d1) as [[? ?]| |]; cbn in *; congruence.
Qed.
Lemma finish_rec_rd n j t : reading t -> rd2 (tape_finish_rec n j t).
Proof.
  intros H. unfold tape_finish_rec. destruct (t_att t); cbn [negb]; [|exact H].
  destruct (t_fmt t) eqn:F; [| | |rdend].
  1,2: destruct (t_mark t); [rdend|]; destruct (t_func t) eqn:FU; try rdend;
    [ pose proof (skip_forw_func n t j) as X; destruct (skip_forw n t j) as [[t1 d1]| |]; cbn [bind]; [|exact I..];
      destruct (t_fmt t1); cbn [bind]; try (nxt; rdend); destruct (Z.odd (t_orecl t1)); cbn [bind]; nxt; try rdend; nxt; rdend
    | pose proof (skip_back_func n t j) as X; destruct (skip_back n t j) as [[t1 d1]| |]; cbn [bind]; [|exact I..];
      nxt; rdend ].
  destruct (t_mark t); [rdend|]; destruct (t_func t) eqn:FU; try rdend;
    (pose proof (skip_p7b_func n t j) as X; destruct (skip_p7b n t j) as [[t1 s]| |]; cbn [bind]; [|exact I..]; destruct s; rdend).
Qed.

Lemma do_call_reads cl c t x : is_write x = false -> reading t -> holds cl c (t_win t) ->
  match do_call t x with Ok (t', _, _) => reading t' /\ holds cl c (t_win t') | UB => False | NoFuel => True end.
Proof.
  intros W R K.
  assert (G : forall r, rd2 r -> safe2 (holds cl c) r ->
    match no_data r with Ok (t', _, _) => reading t' /\ holds cl c (t_win t') | UB => False | NoFuel => True end).
  { intros [[t1 s]| |] A B; cbn in *; auto. }
  destruct x; cbn [is_write] in W; try discriminate W; cbn [do_call].
  - apply G; [apply read_forw_rd; exact R|]. apply read_forw_safe; auto using read_byte_holds, peek_byte_holds, readbk_byte_holds.
  - apply G; [apply read_back_rd; exact R|]. apply read_back_safe; auto using read_byte_holds, peek_byte_holds, readbk_byte_holds.
  - pose proof (read_frame_func t d) as F.
    pose proof (read_frame_safe (holds cl c) (read_byte_holds cl c) (readbk_byte_holds cl c) t d K) as S.
    destruct (tape_read_frame t d) as [[[t1 s] b]| |]; cbn in *; auto. split; [|exact S]. unfold reading in *. congruence.
  - apply G; [apply finish_rec_rd; exact R|].
    apply finish_rec_safe_gen; auto using read_byte_holds, readbk_byte_holds.
    intros X. elim R. exact X.
  - apply G; [|pose proof (rewind_holds cl c t K) as X; destruct (tape_start_rewind t); exact X].
    unfold tape_start_rewind. destruct (flush (t_win t)); exact R.
  - apply G; [|pose proof (rewind_frames_win t n) as X; destruct (tape_rewind_frames t n); cbn in *; rewrite X; exact K].
    unfold tape_rewind_frames. destruct (t_att t); cbn; [|exact R]. destruct (t_frame t <? n); exact R.
Qed.
Lemma do_calls_read cl c l : forall t, forallb (fun x => negb (is_write x)) l = true -> reading t -> holds cl c (t_win t) ->
  match do_calls t l with Ok (t', _) => holds cl c (t_win t') | UB => False | NoFuel => True end.
Proof.
  induction l as [|x l IH]; intros t L R K; [exact K|]. cbn [do_calls forallb] in *. apply andb_true_iff in L as [L1 L2].
  apply negb_true_iff in L1. pose proof (do_call_reads cl c t x L1 R K) as X.
  destruct (do_call t x) as [[[t1 s] d]| |]; cbn [bind]; auto. destruct X as [X1 X2].
  specialize (IH t1 L2 X1 X2). destruct (do_calls t1 l) as [[t2 ss]| |]; cbn in *; auto.
Qed.
