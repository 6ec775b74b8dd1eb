(** The window code against the flat view (bytes on the tape, position of the head). *)
From Verif Require Import Base.Bits Tape.Model Tape.Spec.

Lemma BS_val : Z.of_nat BS = 32768.
Proof. unfold BS. rewrite Z2Nat.id; [reflexivity|lia]. Qed.
Lemma BS_pos : (0 < BS)%nat. Proof. pose proof BS_val. lia. Qed.
Global Opaque BS.

(** *** Lists by position *)
Lemma ext_eq {A} : forall (l r : list A), (forall i, nth_error l i = nth_error r i) -> l = r.
Proof.
  induction l as [|a l IH]; intros [|b r] H; auto.
  - specialize (H O). discriminate.
  - specialize (H O). discriminate.
  - pose proof (H O) as H0. injection H0 as ->. f_equal. apply IH. intros i. exact (H (S i)).
Qed.
Lemma nth_firstn {A} : forall n (l : list A) i, nth_error (firstn n l) i = if Nat.ltb i n then nth_error l i else None.
Proof.
  induction n as [|n IH]; intros l i; cbn [firstn].
  - destruct i; reflexivity.
  - destruct l as [|a l]; [destruct i; [|destruct (Nat.ltb _ _)]; reflexivity|].
    destruct i as [|i]; [reflexivity|]. cbn [nth_error]. rewrite IH.
    change (S i <? S n)%nat with (i <? n)%nat. reflexivity.
Qed.
Lemma nth_skipn {A} : forall n (l : list A) i, nth_error (skipn n l) i = nth_error l (n + i).
Proof.
  induction n as [|n IH]; intros l i; [reflexivity|].
  destruct l as [|a l]; cbn [skipn plus nth_error]; [destruct i; reflexivity|]. apply IH.
Qed.
Lemma nth_app {A} (l r : list A) i :
  nth_error (l ++ r) i = if Nat.ltb i (length l) then nth_error l i else nth_error r (i - length l).
Proof.
  destruct (Nat.ltb_spec i (length l)); [apply nth_error_app1; auto|apply nth_error_app2; auto].
Qed.
Lemma nth_none {A} (l : list A) i : (length l <= i)%nat -> nth_error l i = None.
Proof. apply nth_error_None. Qed.

Lemma overwrite_in (f : list Z) p b : (p <= length f)%nat ->
  overwrite f p b = firstn p f ++ b ++ skipn (p + length b) f.
Proof. intros H. unfold overwrite. replace (p - length f)%nat with O by lia. reflexivity. Qed.

Lemma overwrite_nth f p b i : (p <= length f)%nat ->
  nth_error (overwrite f p b) i =
  if Nat.ltb i p then nth_error f i
  else if Nat.ltb i (p + length b) then nth_error b (i - p) else nth_error f i.
Proof.
  intros H. rewrite overwrite_in by auto. rewrite nth_app, firstn_length, Nat.min_l by lia.
  rewrite nth_firstn. destruct (Nat.ltb_spec i p); [reflexivity|]. rewrite nth_app.
  destruct (Nat.ltb_spec (i - p) (length b)); destruct (Nat.ltb_spec i (p + length b)); try lia; [reflexivity|].
  rewrite nth_skipn. f_equal. lia.
Qed.
Lemma overwrite_length f p b : (p <= length f)%nat ->
  length (overwrite f p b) = Nat.max (length f) (p + length b).
Proof.
  intros H. rewrite overwrite_in by auto. rewrite !app_length, firstn_length, skipn_length. lia.
Qed.
Lemma overwrite_nil f p : (p <= length f)%nat -> overwrite f p [] = f.
Proof.
  intros H. rewrite overwrite_in by auto. cbn. rewrite Nat.add_0_r. apply firstn_skipn.
Qed.
Lemma overwrite_app f p a b : (p <= length f)%nat ->
  overwrite (overwrite f p a) (p + length a) b = overwrite f p (a ++ b).
Proof.
  intros H. apply ext_eq. intros i.
  rewrite !overwrite_nth, nth_app, app_length by (rewrite ?overwrite_length by auto; lia).
  destruct (Nat.ltb_spec i p); destruct (Nat.ltb_spec i (p + length a)); destruct (Nat.ltb_spec (i - p) (length a));
    destruct (Nat.ltb_spec i (p + length a + length b)); destruct (Nat.ltb_spec i (p + (length a + length b)));
    try lia; try reflexivity. f_equal. lia.
Qed.
Lemma overwrite_slice f p n : (p + n <= length f)%nat -> overwrite f p (firstn n (skipn p f)) = f.
Proof.
  intros H. apply ext_eq. intros i. rewrite overwrite_nth by lia.
  rewrite firstn_length, skipn_length, Nat.min_l by lia.
  destruct (Nat.ltb_spec i p); [reflexivity|]. destruct (Nat.ltb_spec i (p + n)); [|reflexivity].
  rewrite nth_firstn, nth_skipn. destruct (Nat.ltb_spec (i - p) n); [f_equal; lia|lia].
Qed.

Global Arguments Nat.ltb : simpl never.
Global Arguments Nat.leb : simpl never.

Ltac okk := unfold win_ok; cbn [w_file w_ro w_pos w_pb w_lb w_dirty w_buf]; refine (conj _ (conj _ (conj _ (conj _ _)))).

(** *** The flat view *)
Lemma ok_slice w : win_ok w -> w_dirty w = false -> (w_pos w + w_lb w <= length (w_file w))%nat.
Proof.
  intros [H1 [H2 [H3 [H4 H5]]]] D. specialize (H5 D). apply (f_equal (@length Z)) in H5.
  rewrite !firstn_length, skipn_length in H5. lia.
Qed.
Lemma window_len w : win_ok w -> length (firstn (w_lb w) (w_buf w)) = w_lb w.
Proof. intros [H1 [H2 [H3 _]]]. rewrite firstn_length. lia. Qed.

Lemma content_len w : win_ok w -> (w_pos w + w_lb w <= length (content w))%nat.
Proof.
  intros H. unfold content. destruct (w_dirty w) eqn:D.
  - pose proof (window_len w H) as L. destruct H as [H1 [H2 [H3 [H4 H5]]]].
    rewrite overwrite_length by auto. lia.
  - apply ok_slice; auto.
Qed.
Lemma cursor_le w : win_ok w -> (cursor w <= length (content w))%nat.
Proof. intros H. pose proof (content_len w H). destruct H as [_ [H _]]. unfold cursor. lia. Qed.

(** The bytes of the window are those of the tape at its position. *)
Lemma window_bytes w i : win_ok w -> (i < w_lb w)%nat -> nth_error (content w) (w_pos w + i) = nth_error (w_buf w) i.
Proof.
  intros H Hi. pose proof (window_len w H) as L. pose proof H as [H1 [H2 [H3 [H4 H5]]]].
  unfold content. destruct (w_dirty w) eqn:D.
  - rewrite overwrite_nth by auto. destruct (Nat.ltb_spec (w_pos w + i) (w_pos w)); [lia|].
    rewrite L. destruct (Nat.ltb_spec (w_pos w + i) (w_pos w + w_lb w)); [|lia].
    rewrite nth_firstn. replace (w_pos w + i - w_pos w)%nat with i by lia.
    destruct (Nat.ltb_spec i (w_lb w)); [reflexivity|lia].
  - specialize (H5 eq_refl). rewrite <- nth_skipn.
    assert (E : nth_error (firstn (w_lb w) (w_buf w)) i = nth_error (firstn (w_lb w) (skipn (w_pos w) (w_file w))) i)
      by (rewrite H5; reflexivity).
    rewrite !nth_firstn in E. destruct (Nat.ltb_spec i (w_lb w)); [|lia]. symmetry. exact E.
Qed.

Lemma flush_some w : win_ok w -> can_flush w -> exists w1, flush w = Some w1 /\ win_ok w1 /\ w_dirty w1 = false /\
  w_file w1 = content w /\ content w1 = content w /\ w_pos w1 = w_pos w /\ w_pb w1 = w_pb w /\ w_lb w1 = w_lb w /\
  w_ro w1 = w_ro w /\ w_buf w1 = w_buf w.
Proof.
  intros H C. pose proof (window_len w H) as L. pose proof H as [H1 [H2 [H3 [H4 H5]]]].
  unfold flush, content. destruct (w_dirty w) eqn:D.
  - destruct (w_ro w) eqn:R; [specialize (C R); congruence|].
    eexists. split; [reflexivity|].
    split; [|cbn; repeat split; auto].
    split; [exact H1|]. split; [exact H2|]. split; [exact H3|]. split; [cbn; rewrite overwrite_length by auto; lia|].
    cbn. intros _. apply ext_eq. intros i. rewrite !nth_firstn, nth_skipn. cbn.
      destruct (Nat.ltb_spec i (w_lb w)); [|reflexivity]. rewrite overwrite_nth by auto.
      destruct (Nat.ltb_spec (w_pos w + i) (w_pos w)); [lia|]. rewrite L.
      destruct (Nat.ltb_spec (w_pos w + i) (w_pos w + w_lb w)); [|lia].
      rewrite nth_firstn. replace (w_pos w + i - w_pos w)%nat with i by lia.
      destruct (Nat.ltb_spec i (w_lb w)); [reflexivity|lia].
  - eexists. split; [reflexivity|]. rewrite D. repeat split; auto.
Qed.

Lemma fill_ok w p : length (w_buf w) = BS -> w_dirty w = false -> (p <= length (w_file w))%nat ->
  win_ok (fill w p) /\ content (fill w p) = w_file w /\ w_pos (fill w p) = p /\ w_pb (fill w p) = O /\
  w_lb (fill w p) = Nat.min BS (length (w_file w) - p) /\ w_dirty (fill w p) = false /\ w_ro (fill w p) = w_ro w /\
  w_file (fill w p) = w_file w.
Proof.
  intros H1 D Hp. unfold fill. cbn.
  assert (L : length (firstn BS (skipn p (w_file w))) = Nat.min BS (length (w_file w) - p))
    by (rewrite firstn_length, skipn_length; reflexivity).
  repeat split; cbn; auto; try (rewrite L; lia).
  - rewrite app_length, skipn_length, L. lia.
  - intros _. rewrite L, firstn_app, L.
    replace (Nat.min BS (length (w_file w) - p) - Nat.min BS (length (w_file w) - p))%nat with O by lia.
    cbn [firstn]. rewrite app_nil_r, firstn_firstn, Nat.min_l by lia. reflexivity.
  - unfold content. cbn. rewrite D. reflexivity.
Qed.

Global Arguments fill : simpl never.
Global Arguments Nat.sub : simpl never.
Lemma advance_ok w : win_ok w -> can_flush w ->
  exists w', advance_win w = Some (w', negb (Nat.ltb (cursor w) (length (content w)))) /\ win_ok w' /\
    content w' = content w /\ cursor w' = cursor w /\ w_ro w' = w_ro w /\ can_flush w' /\
    ((cursor w < length (content w))%nat -> (w_pb w' < w_lb w')%nat) /\
    (w_dirty w = false -> w_dirty w' = false) /\
    w_file w' = (if Nat.leb (w_lb w) (w_pb w) then content w else w_file w).
Proof.
  intros H C. unfold advance_win.
  destruct (Nat.leb (w_lb w) (w_pb w) || Nat.eqb (w_lb w) 0) eqn:E.
  - assert (Epb : w_pb w = w_lb w) by (destruct H as [_ [H2 _]]; lia).
    assert (Eleb : Nat.leb (w_lb w) (w_pb w) = true) by lia. rewrite Eleb.
    destruct (flush_some w H C) as [w1 [Fl [O1 [D1 [F1 [C1 [P1 [B1 [L1 [R1 BB]]]]]]]]]]. rewrite Fl.
    set (w2 := if w_dirty w then _ else w1).
    assert (A : (w_pos w2 + w_lb w2 = cursor w)%nat /\ w_file w2 = content w /\ w_dirty w2 = false /\ w_ro w2 = w_ro w /\
                length (w_buf w2) = BS).
    { subst w2. destruct O1 as [Ob _]. destruct (w_dirty w) eqn:D; cbn; unfold cursor; repeat split; auto; lia. }
    destruct A as [A1 [A2 [A3 [A4 A5]]]].
    pose proof (cursor_le w H) as CL.
    destruct (fill_ok w2 (w_pos w2 + w_lb w2)) as [F2 [F3 [F4 [F5 [F6 [F7 [F8 F9]]]]]]]; auto; [rewrite A1, A2; exact CL|].
    eexists. split; [|split; [exact F2|]].
    + f_equal. f_equal. rewrite F6, A2, A1. pose proof BS_pos.
      destruct (Nat.ltb_spec (cursor w) (length (content w))); cbn [negb]; lia.
    + split; [congruence|]. split; [unfold cursor at 1; rewrite F4, F5; lia|]. split; [congruence|].
      split; [intros _; exact F7|]. split; [|split; [intros _; exact F7|congruence]].
      intros Hlt. rewrite F5, F6, A2, A1. pose proof BS_pos. lia.
  - assert (Eleb : Nat.leb (w_lb w) (w_pb w) = false) by lia. rewrite Eleb.
    exists w. pose proof (content_len w H) as L. 
    split; [|split; [exact H|]; split; [reflexivity|]; split; [reflexivity|]; split; [reflexivity|]; split; [exact C|]; split; [lia|]; split; [auto|reflexivity]].
    f_equal. f_equal. unfold cursor. destruct (Nat.ltb_spec (w_pos w + w_pb w) (length (content w))); [reflexivity|lia].
Qed.

(** *** Reading a byte forward *)
Lemma read_byte_ok t d : t_att t = true -> win_ok (t_win t) -> can_flush (t_win t) ->
  exists w', win_ok w' /\ can_flush w' /\ w_ro w' = w_ro (t_win t) /\ content w' = bytes_on t /\
    (w_dirty (t_win t) = false -> w_dirty w' = false) /\
    match nth_error (bytes_on t) (at_byte t) with
    | Some b => tape_read_byte t d = Ok (set_win t w', SOk, b) /\ cursor w' = S (at_byte t)
    | None => tape_read_byte t d = Ok (set_eot (set_win t w') true, SEot, d) /\ cursor w' = at_byte t
    end.
Proof.
  intros A H C. unfold tape_read_byte. rewrite A. cbn [negb].
  destruct (advance_ok _ H C) as [w' [E [H1 [H2 [H3 [H4 [H5 [H6 [H7 _]]]]]]]]]. rewrite E.
  unfold bytes_on, at_byte. destruct (Nat.ltb_spec (cursor (t_win t)) (length (content (t_win t)))) as [Hlt|Hge]; cbn [negb].
  - specialize (H6 Hlt).
    assert (W : nth_error (w_buf w') (w_pb w') = nth_error (content (t_win t)) (cursor (t_win t))).
    { rewrite <- H2, <- H3. symmetry. apply window_bytes; auto. }
    unfold buf_at. rewrite W. destruct (nth_error (content (t_win t)) (cursor (t_win t))) as [b|] eqn:N.
    + eexists. split; [|split; [|split; [|split; [|split; [|split; [reflexivity|]]]]]]; cbn [w_file w_ro w_pos w_pb w_lb w_dirty w_buf].
      * destruct H1 as [Ha [Hb [Hc [Hd He]]]]. repeat split; cbn; auto.
      * exact H5.
      * exact H4.
      * rewrite <- H2. reflexivity.
      * exact H7.
      * unfold cursor in *. cbn. lia.
    + apply nth_error_None in N. lia.
  - rewrite (nth_none _ _ Hge). exists w'. repeat split; auto; try apply H1.
Qed.

Lemma peek_byte_ok t d : t_att t = true -> win_ok (t_win t) -> can_flush (t_win t) ->
  exists w', win_ok w' /\ can_flush w' /\ w_ro w' = w_ro (t_win t) /\ content w' = bytes_on t /\ cursor w' = at_byte t /\
    (w_dirty (t_win t) = false -> w_dirty w' = false) /\
    match nth_error (bytes_on t) (at_byte t) with
    | Some b => tape_peek_byte t d = Ok (set_win t w', SOk, b)
    | None => tape_peek_byte t d = Ok (set_win t w', SEot, d)
    end.
Proof.
  intros A H C. unfold tape_peek_byte. rewrite A. cbn [negb].
  destruct (advance_ok _ H C) as [w' [E [H1 [H2 [H3 [H4 [H5 [H6 [H7 _]]]]]]]]]. rewrite E. exists w'.
  split; [exact H1|]. split; [exact H5|]. split; [exact H4|]. split; [exact H2|]. split; [exact H3|]. split; [exact H7|].
  unfold bytes_on, at_byte. destruct (Nat.ltb_spec (cursor (t_win t)) (length (content (t_win t)))) as [Hlt|Hge]; cbn [negb].
  - specialize (H6 Hlt).
    assert (W : nth_error (w_buf w') (w_pb w') = nth_error (content (t_win t)) (cursor (t_win t))).
    { rewrite <- H2, <- H3. symmetry. apply window_bytes; auto. }
    unfold buf_at. rewrite W. destruct (nth_error (content (t_win t)) (cursor (t_win t))) as [b|] eqn:N; [reflexivity|].
    apply nth_error_None in N. lia.
  - rewrite (nth_none _ _ Hge). reflexivity.
Qed.

(** *** Reading a byte backward *)
Lemma readbk_byte_ok t d : t_att t = true -> win_ok (t_win t) -> can_flush (t_win t) -> t_bot t = false ->
  exists w', win_ok w' /\ can_flush w' /\ w_ro w' = w_ro (t_win t) /\ content w' = bytes_on t /\
    (w_dirty (t_win t) = false -> w_dirty w' = false) /\
    match at_byte t with
    | S k => exists b e, nth_error (bytes_on t) k = Some b /\ (t_eot t = false -> e = false) /\
               tape_readbk_byte t d = Ok (set_eot (set_win t w') e, SOk, b) /\ cursor w' = k
    | O => exists b, tape_readbk_byte t d = Ok (set_bot (set_win t w') true, SBot, b) /\ cursor w' = O /\
             b = match nth_error (w_buf (t_win t)) 0 with Some x => x | None => 0 end
    end.
Proof.
  intros A H C B. unfold tape_readbk_byte. rewrite A. cbn [negb]. pose proof BS_pos as BSp.
  pose proof (cursor_le _ H) as CL.
  destruct (Nat.eqb (w_pb (t_win t)) 0 || Nat.eqb (w_lb (t_win t)) 0) eqn:E.
  - assert (Epb : w_pb (t_win t) = O) by (destruct H as [_ [H2 _]]; lia).
    destruct (flush_some _ H C) as [w1 [Fl [O1 [D1 [F1 [C1 [P1 [B1 [L1 [R1 BB]]]]]]]]]]. rewrite Fl, B.
    unfold at_byte, cursor. rewrite Epb, Nat.add_0_r, P1.
    destruct (w_pos (t_win t)) as [|k] eqn:P.
    + cbn [Nat.eqb]. rewrite B1, Epb.
      assert (Hb : exists b, nth_error (w_buf w1) 0 = Some b).
      { destruct (nth_error (w_buf w1) 0) eqn:N; [eauto|]. apply nth_error_None in N. destruct O1 as [O1 _]. lia. }
      destruct Hb as [b Hb]. unfold buf_at. rewrite Hb. cbn [bind].
      eexists. split; [|split; [|split; [|split; [|split; [|exists b; split; [reflexivity|]]]]]]; cbn.
      * destruct O1 as [Ha [Hb2 [Hc [Hd He]]]]. repeat split; cbn; auto; lia.
      * intros _. exact D1.
      * exact R1.
      * unfold content. cbn. rewrite D1. exact F1.
      * intros _. exact D1.
      * split; [lia|]. rewrite <- BB. cbn in Hb. rewrite Hb. reflexivity.
    + replace (Nat.eqb (S k) 0) with false by lia.
      assert (CL2 : (S k <= length (content (t_win t)))%nat).
      { pose proof (content_len _ H) as X. rewrite P in X. lia. }
      assert (Hbuf : length (w_buf w1) = BS) by apply O1.
      assert (G : forall w2, win_ok w2 -> w_dirty w2 = false -> w_ro w2 = w_ro (t_win t) -> content w2 = content (t_win t) ->
        (w_pos w2 + w_pb w2 = S k)%nat -> (0 < w_pb w2)%nat ->
        exists w', win_ok w' /\ can_flush w' /\ w_ro w' = w_ro (t_win t) /\ content w' = bytes_on t /\
          (w_dirty (t_win t) = false -> w_dirty w' = false) /\
          exists b e, nth_error (bytes_on t) k = Some b /\ (t_eot t = false -> e = false) /\
          match w_pb w2 with
          | O => UB
          | S p => let* b := buf_at w2 p in
             Ok (set_win (set_eot t false) (Win (w_file w2) (w_ro w2) (w_pos w2) p (w_lb w2) (w_dirty w2) (w_buf w2)), SOk, b)
          end = Ok (set_eot (set_win t w') e, SOk, b) /\ (w_pos w' + w_pb w')%nat = k).
      { intros w2 G1 G2 G3 G4 G5 G6. destruct (w_pb w2) as [|p] eqn:Q; [lia|].
        assert (G7 : (p < w_lb w2)%nat) by (destruct G1 as [_ [G1 _]]; lia).
        pose proof (window_bytes w2 p G1 G7) as W.
        destruct (nth_error (w_buf w2) p) as [b|] eqn:N.
        2:{ apply nth_error_None in N. destruct G1 as [Ga [_ [Gc _]]]. lia. }
        unfold buf_at. rewrite N. cbn [bind].
        eexists. split; [|split; [|split; [|split; [|split; [|exists b, false; split; [|split; [auto|split; [reflexivity|]]]]]]]]; cbn.
        - destruct G1 as [Ga [Gb [Gc [Gd Ge]]]]. repeat split; cbn; auto; lia.
        - intros _. exact G2.
        - exact G3.
        - unfold bytes_on. rewrite <- G4. reflexivity.
        - intros _. exact G2.
        - unfold bytes_on. rewrite <- G4, <- W. f_equal. lia.
        - lia. }
      destruct (Nat.ltb_spec (S k) BS) as [Hlt|Hge].
      * destruct (fill_ok w1 0 Hbuf D1 ltac:(lia)) as [F2 [F3 [F4 [F5 [F6 [F7 [F8 F9]]]]]]].
        apply G; cbn [w_file w_ro w_pos w_pb w_lb w_dirty w_buf]; rewrite ?F4; try congruence; try lia.
        -- destruct F2 as [Ha [Hb2 [Hc [Hd He]]]]. repeat split; cbn; auto. rewrite F6, F1. lia.
        -- unfold content at 1. cbn [w_dirty w_file]. rewrite F7. congruence.
      * destruct (fill_ok w1 (S k - BS) Hbuf D1 ltac:(rewrite F1; lia)) as [F2 [F3 [F4 [F5 [F6 [F7 [F8 F9]]]]]]].
        rewrite F1 in F6.
        apply G; cbn [w_file w_ro w_pos w_pb w_lb w_dirty w_buf]; rewrite ?F4; try congruence; try lia.
        -- destruct F2 as [Ha [Hb2 [Hc [Hd He]]]]. repeat split; cbn; auto.
        -- unfold content at 1. cbn [w_dirty w_file]. rewrite F7. congruence.
  - unfold at_byte, cursor. destruct (w_pb (t_win t)) as [|p] eqn:Q; [destruct H as [_ [H2 _]]; lia|].
    assert (Hp : (p < w_lb (t_win t))%nat) by (destruct H as [_ [H2 _]]; lia).
    replace (w_pos (t_win t) + S p)%nat with (S (w_pos (t_win t) + p)) by lia.
    pose proof (window_bytes _ p H Hp) as W.
    destruct (nth_error (w_buf (t_win t)) p) as [b|] eqn:N.
    2:{ apply nth_error_None in N. destruct H as [Ga [_ [Gc _]]]. lia. }
    unfold buf_at. rewrite N. cbn [bind].
    eexists. split; [|split; [|split; [|split; [|split; [|exists b, (t_eot t); split; [exact W|split; [auto|split; [reflexivity|]]]]]]]]; cbn.
    + destruct H as [Ga [Gb [Gc [Gd Ge]]]]. repeat split; cbn; auto; lia.
    + exact C.
    + reflexivity.
    + reflexivity.
    + auto.
    + reflexivity.
Qed.

(** *** Writing a byte *)
Lemma write_in_window f p buf lb pb b :
  length buf = BS -> (pb <= lb)%nat -> (lb <= BS)%nat -> (pb < BS)%nat -> (p <= length f)%nat ->
  overwrite f p (firstn (if Nat.ltb lb (S pb) then S pb else lb) (upd buf pb b)) =
  overwrite (overwrite f p (firstn lb buf)) (p + pb) [b].
Proof.
  intros H1 H2 H3 H4 H5. apply ext_eq. intros i.
  assert (L1 : length (firstn lb buf) = lb) by (rewrite firstn_length; lia).
  assert (L2 : length (firstn (if Nat.ltb lb (S pb) then S pb else lb) (upd buf pb b)) = if Nat.ltb lb (S pb) then S pb else lb).
  { rewrite firstn_length, upd_length. destruct (Nat.ltb_spec lb (S pb)); lia. }
  rewrite (overwrite_nth (overwrite f p (firstn lb buf))) by (rewrite overwrite_length, L1; lia).
  rewrite !overwrite_nth by auto. rewrite L1, L2. cbn [length].
  destruct (Nat.ltb_spec i p).
  { destruct (Nat.ltb_spec i (p + pb)); [reflexivity|lia]. }
  destruct (Nat.ltb_spec i (p + pb)).
  - destruct (Nat.ltb_spec i (p + lb)); [|lia].
    destruct (Nat.ltb_spec i (p + (if Nat.ltb lb (S pb) then S pb else lb))); [|destruct (Nat.ltb_spec lb (S pb)); lia].
    rewrite !nth_firstn, upd_nth. destruct (Nat.eqb_spec pb (i - p)); [lia|].
    destruct (Nat.ltb_spec (i - p) lb); [|lia].
    destruct (Nat.ltb_spec lb (S pb)); destruct (Nat.ltb_spec (i - p) (S pb)); destruct (Nat.ltb_spec (i - p) lb); try lia; reflexivity.
  - destruct (Nat.ltb_spec i (p + pb + 1)).
    + assert (i = (p + pb)%nat) by lia. subst i. replace (p + pb - (p + pb))%nat with O by lia.
      destruct (Nat.ltb_spec (p + pb) (p + (if Nat.ltb lb (S pb) then S pb else lb))); [|destruct (Nat.ltb_spec lb (S pb)); lia].
      rewrite nth_firstn, upd_nth. replace (p + pb - p)%nat with pb by lia. rewrite Nat.eqb_refl.
      destruct (nth_error buf pb) eqn:N; [|apply nth_error_None in N; lia].
      destruct (Nat.ltb_spec lb (S pb)); destruct (Nat.ltb_spec pb (S pb)); destruct (Nat.ltb_spec pb lb); try lia; reflexivity.
    + destruct (Nat.ltb_spec lb (S pb)).
      * destruct (Nat.ltb_spec i (p + S pb)); [lia|]. destruct (Nat.ltb_spec i (p + lb)); [lia|]. reflexivity.
      * destruct (Nat.ltb_spec i (p + lb)); [|reflexivity].
        rewrite !nth_firstn, upd_nth. destruct (Nat.eqb_spec pb (i - p)); [lia|]. reflexivity.
Qed.

Lemma clean_content w : win_ok w -> w_dirty w = false ->
  overwrite (w_file w) (w_pos w) (firstn (w_lb w) (w_buf w)) = w_file w.
Proof.
  intros H D. pose proof (ok_slice w H D) as HS. destruct H as [H1 [H2 [H3 [H4 H5]]]]. rewrite (H5 D). apply overwrite_slice. exact HS.
Qed.
Lemma content_any w : win_ok w -> content w = overwrite (w_file w) (w_pos w) (firstn (w_lb w) (w_buf w)).
Proof. intros H. unfold content. destruct (w_dirty w) eqn:D; [reflexivity|symmetry; apply clean_content; auto]. Qed.

(** Writing inside the array. *)
Lemma write_inside w b : win_ok w -> (w_pb w < BS)%nat ->
  let w' := Win (w_file w) (w_ro w) (w_pos w) (S (w_pb w)) (if Nat.ltb (w_lb w) (S (w_pb w)) then S (w_pb w) else w_lb w) true
                (upd (w_buf w) (w_pb w) b) in
  win_ok w' /\ content w' = overwrite (content w) (cursor w) [b] /\ cursor w' = S (cursor w).
Proof.
  intros H Hp w'. pose proof H as [H1 [H2 [H3 [H4 H5]]]]. split; [|split].
  - repeat split; cbn; try (destruct (Nat.ltb_spec (w_lb w) (S (w_pb w))); lia); auto; try discriminate.
    rewrite upd_length. exact H1.
  - unfold content at 1. cbn [w_dirty w_file w_pos w_lb w_buf w']. rewrite (content_any w H). unfold cursor. apply write_in_window; auto.
  - unfold cursor, w'. cbn. lia.
Qed.

Lemma write_byte_ok t b : t_att t = true -> win_ok (t_win t) -> w_ro (t_win t) = false -> write_ready (t_win t) ->
  exists w', tape_write_byte t b = Ok (set_win t w', SOk) /\ win_ok w' /\ w_ro w' = false /\ w_dirty w' = true /\
    content w' = overwrite (bytes_on t) (at_byte t) [b] /\ cursor w' = S (at_byte t).
Proof.
  intros A H R W. unfold tape_write_byte. rewrite A. cbn [negb]. pose proof BS_pos as BSp.
  destruct (Nat.leb_spec BS (w_pb (t_win t))) as [Hge|Hlt].
  - destruct W as [D|W]; [|lia].
    assert (C : can_flush (t_win t)) by (intros X; congruence).
    destruct (flush_some _ H C) as [w1 [Fl [O1 [D1 [F1 [C1 [P1 [B1 [L1 [R1 BB]]]]]]]]]]. rewrite Fl, D.
    assert (Hbuf : length (w_buf w1) = BS) by apply O1.
    set (w2 := Win (w_file w1) (w_ro w1) (w_pos (t_win t) + w_lb (t_win t)) 0 0 (w_dirty w1) (w_buf w1)).
    assert (O2 : win_ok w2).
    { repeat split; cbn; auto; try lia. rewrite F1. apply content_len. exact H. }
    assert (Ec : cursor w2 = cursor (t_win t)).
    { unfold cursor, w2. cbn. destruct H as [_ [Hb [Hc _]]]. lia. }
    assert (Ef : content w2 = content (t_win t)) by (unfold content at 1, w2; cbn; rewrite D1; exact F1).
    destruct (write_inside w2 b O2 BSp) as [W1 [W2 W3]].
    cbv zeta. assert (Hif : Nat.ltb (w_pb w2) (length (w_buf w2)) = true) by (cbn [w_pb w_buf w2]; lia).
    rewrite Hif.
    eexists. split; [reflexivity|]. split; [exact W1|]. split; [cbn; congruence|]. split; [reflexivity|].
    unfold bytes_on, at_byte. rewrite <- Ef, <- Ec. split; [exact W2|exact W3].
  - assert (Hbuf : length (w_buf (t_win t)) = BS) by apply H. rewrite Hbuf.
    destruct (Nat.ltb_spec (w_pb (t_win t)) BS); [|lia].
    destruct (write_inside _ b H Hlt) as [W1 [W2 W3]].
    eexists. split; [reflexivity|]. split; [exact W1|]. split; [exact R|]. split; [reflexivity|]. split; [exact W2|exact W3].
Qed.

(** In the remaining state the byte lands at the start of the window. *)
Lemma write_byte_wrong t b : t_att t = true -> win_ok (t_win t) -> w_dirty (t_win t) = false -> w_pb (t_win t) = BS ->
  exists w', tape_write_byte t b = Ok (set_win t w', SOk) /\ win_ok w' /\
    content w' = overwrite (bytes_on t) (at_byte t - BS) [b] /\ cursor w' = S (at_byte t - BS).
Proof.
  intros A H D Hp. unfold tape_write_byte. rewrite A. cbn [negb]. pose proof BS_pos as BSp.
  destruct (Nat.leb_spec BS (w_pb (t_win t))) as [Hge|Hlt]; [|lia].
  unfold flush. rewrite D.
  assert (Hbuf : length (w_buf (t_win t)) = BS) by apply H.
  set (w2 := Win (w_file (t_win t)) (w_ro (t_win t)) (w_pos (t_win t)) 0 0 (w_dirty (t_win t)) (w_buf (t_win t))).
  assert (O2 : win_ok w2).
  { destruct H as [Ha [Hb [Hc [Hd He]]]]. repeat split; cbn; auto; lia. }
  destruct (write_inside w2 b O2 BSp) as [W1 [W2 W3]].
  cbv zeta.
  assert (Hif : Nat.ltb (w_pb w2) (length (w_buf w2)) = true) by (cbn [w_pb w_buf w2]; lia).
  rewrite Hif.
  eexists. split; [reflexivity|]. split; [exact W1|].
  assert (Ec : cursor w2 = (at_byte t - BS)%nat) by (unfold at_byte, cursor, w2; cbn; lia).
  assert (Ef : content w2 = bytes_on t) by (unfold bytes_on, content, w2; cbn; rewrite D; reflexivity).
  rewrite <- Ec, <- Ef. split; [exact W2|exact W3].
Qed.

(** *** Going back to fill in a byte *)
Lemma write_prev_ok t b : t_att t = true -> win_ok (t_win t) -> w_ro (t_win t) = false ->
  0 <= t_srec t < Z.of_nat (at_byte t) ->
  exists w', tape_write_prev t b = Ok (set_srec (set_win t w') (t_srec t + 1), SOk) /\ win_ok w' /\ w_ro w' = false /\
    (w_dirty (t_win t) = true -> w_dirty w' = true) /\
    content w' = overwrite (bytes_on t) (Z.to_nat (t_srec t)) [b] /\ cursor w' = at_byte t.
Proof.
  intros A H R S. unfold tape_write_prev. rewrite A. cbn [negb]. pose proof BS_pos as BSp. pose proof BS_val as BSv.
  pose proof (content_len _ H) as CL. pose proof (window_len _ H) as WL.
  pose proof H as [H1 [H2 [H3 [H4 H5]]]]. unfold at_byte, cursor in *.
  destruct ((0 <=? t_srec t - Z.of_nat (w_pos (t_win t))) && (t_srec t - Z.of_nat (w_pos (t_win t)) <? Z.of_nat BS)) eqn:E.
  - set (i := Z.to_nat (t_srec t - Z.of_nat (w_pos (t_win t)))) in *.
    assert (Hi : (i < w_pb (t_win t))%nat) by lia.
    assert (Hs : Z.to_nat (t_srec t) = (w_pos (t_win t) + i)%nat) by lia.
    rewrite H1. destruct (Nat.ltb_spec i BS); [|lia].
    destruct (Nat.ltb_spec (w_lb (t_win t)) i); [lia|].
    eexists. split; [reflexivity|]. cbn [w_file w_ro w_pos w_pb w_lb w_dirty w_buf]. split; [|split; [exact R|split; [auto|split; [|reflexivity]]]].
    + okk; [rewrite upd_length; exact H1|exact H2|exact H3|exact H4|discriminate].
    + unfold bytes_on. rewrite (content_any _ H), Hs. unfold content. cbn.
      pose proof (write_in_window (w_file (t_win t)) (w_pos (t_win t)) (w_buf (t_win t)) (w_lb (t_win t)) i b H1 ltac:(lia) H3 ltac:(lia) H4) as X.
      destruct (Nat.ltb_spec (w_lb (t_win t)) (Datatypes.S i)); [lia|]. exact X.
  - assert (Hlt : t_srec t < Z.of_nat (w_pos (t_win t))) by lia.
    rewrite R. destruct (Z.ltb_spec (t_srec t) 0); [lia|]. cbn [orb].
    eexists. split; [reflexivity|]. cbn [w_file w_ro w_pos w_pb w_lb w_dirty w_buf]. set (k := Z.to_nat (t_srec t)) in *.
    assert (Hk : (k < w_pos (t_win t))%nat) by lia.
    split; [|split; [auto|split; [auto|split; [|reflexivity]]]].
    + okk; [exact H1|exact H2|exact H3| |].
      * rewrite overwrite_length by lia. lia.
      * intros D. rewrite (H5 D). apply ext_eq. intros j. rewrite !nth_firstn, !nth_skipn, overwrite_nth by lia. cbn [length].
        destruct (Nat.ltb_spec j (w_lb (t_win t))); [|reflexivity].
        destruct (Nat.ltb_spec (w_pos (t_win t) + j) k); [lia|].
        destruct (Nat.ltb_spec (w_pos (t_win t) + j) (k + 1)); [lia|reflexivity].
    + unfold bytes_on, content. cbn [w_file w_ro w_pos w_pb w_lb w_dirty w_buf]. destruct (w_dirty (t_win t)); [|reflexivity].
      apply ext_eq. intros j.
      assert (L0 : length (overwrite (w_file (t_win t)) k [b]) = Nat.max (length (w_file (t_win t))) (k + 1))
        by (rewrite overwrite_length by lia; reflexivity).
      assert (L1 : length (overwrite (w_file (t_win t)) (w_pos (t_win t)) (firstn (w_lb (t_win t)) (w_buf (t_win t)))) =
                   Nat.max (length (w_file (t_win t))) (w_pos (t_win t) + w_lb (t_win t)))
        by (rewrite overwrite_length, WL by lia; reflexivity).
      rewrite (overwrite_nth (overwrite (w_file (t_win t)) k [b])), (overwrite_nth (overwrite (w_file (t_win t)) (w_pos (t_win t)) _) k), !overwrite_nth by lia. rewrite WL. cbn [length].
      destruct (Nat.ltb_spec j (w_pos (t_win t))); [reflexivity|].
      destruct (Nat.ltb_spec j k); [lia|]. destruct (Nat.ltb_spec j (k + 1)); [lia|].
      reflexivity.
Qed.
