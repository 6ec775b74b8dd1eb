(** Termination of tape_finish_rec, byte moves, the window after reading, and rewinding. *)
From Verif Require Import Base.Bits Tape.Model Tape.Spec Tape.Window Tape.Safety Tape.Records Tape.Tap Tape.P7b.

(** *** What a byte operation leaves alone *)
Definition same_rec (t t' : tape) : Prop :=
  t_lrecl t' = t_lrecl t /\ t_orecl t' = t_orecl t /\ t_fmt t' = t_fmt t /\ t_func t' = t_func t /\ t_mark t' = t_mark t /\ t_att t' = t_att t.
Lemma read_byte_rec t d : match tape_read_byte t d with Ok (t', _, _) => same_rec t t' | _ => True end.
Proof.
  unfold tape_read_byte, same_rec. destruct (t_att t) eqn:A; cbn; auto 10. destruct (advance_win (t_win t)) as [[w [|]]|]; cbn; auto 10.
  destruct (buf_at w (w_pb w)); cbn; auto 10.
Qed.
Lemma readbk_byte_rec t d : match tape_readbk_byte t d with Ok (t', _, _) => same_rec t t' | _ => True end.
Proof.
  unfold tape_readbk_byte. destruct (t_att t) eqn:A; cbn [negb]; [|unfold same_rec; auto 10].
  assert (G : forall t2 w2, same_rec t t2 -> match (match w_pb w2 with
    | O => UB
    | S p =>
      let* b := buf_at w2 p in
      Ok (set_win t2 (Win (w_file w2) (w_ro w2) (w_pos w2) p (w_lb w2) (w_dirty w2) (w_buf w2)), SOk, b)
    end) with Ok (t', _, _) => same_rec t t' | _ => True end).
  { intros t2 w2 Ht. destruct (w_pb w2); [exact I|]. destruct (buf_at w2 n); cbn; auto. }
  assert (R : same_rec t t) by (unfold same_rec; auto 10).
  destruct (Nat.eqb (w_pb (t_win t)) 0 || Nat.eqb (w_lb (t_win t)) 0); [|apply G; exact R].
  destruct (flush (t_win t)) as [w1|]; [|exact R]. destruct (t_bot t); [exact R|].
  destruct (Nat.eqb (w_pos w1) 0); [destruct (buf_at w1 (w_pb w1)); cbn; auto|]. apply G. exact R.
Qed.

(** *** tape_finish_rec ends, SIMH and E11, from any state *)
Lemma skip_forw_ends n : forall t d, tap_like (t_fmt t) -> t_func t = FRead -> t_mark t = false -> t_att t = true ->
  0 <= t_lrecl t -> t_orecl t < 4294967296 -> t_orecl t - t_lrecl t <= Z.of_nat n -> skip_forw n t d <> NoFuel.
Proof.
  induction n as [|n IH]; intros t d TL FU MK A L0 L1 L2; cbn [skip_forw].
  - replace (t_lrecl t <? t_orecl t) with false by lia. discriminate.
  - destruct (Z.ltb_spec (t_lrecl t) (t_orecl t)); [|discriminate].
    pose proof (read_byte_rec t d) as X.
    assert (E : tape_read_frame t d = let* x := tape_read_byte t d in
        let '(t1, s, b) := x in
        Ok (set_frame (set_lrecl t1 (u32 (t_lrecl t1 + 1))) (t_frame t1 + (if t_hi t then 1 else 2)), s, b)).
    { unfold tape_read_frame. rewrite A, MK, FU. cbn [negb]. replace (t_orecl t <=? t_lrecl t) with false by lia.
      destruct TL as [-> | ->]; reflexivity. }
    rewrite E. destruct (tape_read_byte t d) as [[[t1 s] b]| |] eqn:EB; cbn [bind]; try discriminate.
    2:{ exfalso. revert EB. unfold tape_read_byte. rewrite A. cbn [negb]. destruct (advance_win (t_win t)) as [[w [|]]|]; try discriminate.
        unfold buf_at. destruct (nth_error (w_buf w) (w_pb w)); discriminate. }
    destruct X as [X1 [X2 [X3 [X4 [X5 X6]]]]].
    apply IH; cbn [t_fmt t_func t_mark t_att t_lrecl t_orecl set_frame set_lrecl]; unfold u32; rewrite ?X1, ?X2, ?X3, ?X4, ?X5, ?X6; auto; try lia;
      rewrite Z.mod_small by lia; lia.
Qed.
Lemma readbk_byte_fuel t d : tape_readbk_byte t d <> NoFuel.
Proof.
  unfold tape_readbk_byte. destruct (t_att t); cbn [negb]; [|discriminate].
  assert (G : forall t2 w2, (match w_pb w2 with
    | O => UB
    | S p =>
      let* b := buf_at w2 p in
      Ok (set_win t2 (Win (w_file w2) (w_ro w2) (w_pos w2) p (w_lb w2) (w_dirty w2) (w_buf w2)), SOk, b)
    end) <> NoFuel).
  { intros t2 w2. destruct (w_pb w2); [discriminate|]. unfold buf_at. destruct (nth_error (w_buf w2) n); discriminate. }
  destruct (Nat.eqb (w_pb (t_win t)) 0 || Nat.eqb (w_lb (t_win t)) 0); [|apply G].
  destruct (flush (t_win t)) as [w1|]; [|discriminate]. destruct (t_bot t); [discriminate|].
  destruct (Nat.eqb (w_pos w1) 0); [unfold buf_at; destruct (nth_error (w_buf w1) (w_pb w1)); discriminate|]. apply G.
Qed.
Lemma read_byte_fuel t d : tape_read_byte t d <> NoFuel.
Proof.
  unfold tape_read_byte. destruct (t_att t); cbn [negb]; [|discriminate]. destruct (advance_win (t_win t)) as [[w [|]]|]; try discriminate.
  unfold buf_at. destruct (nth_error (w_buf w) (w_pb w)); discriminate.
Qed.
Lemma read_bytes_fuel n : forall t, read_bytes n t <> NoFuel.
Proof.
  induction n as [|n IH]; intros t; cbn [read_bytes]; [discriminate|]. pose proof (read_byte_fuel t 0).
  destruct (tape_read_byte t 0) as [[[t1 s] b]| |]; cbn [bind]; try congruence. specialize (IH t1).
  destruct s; try discriminate. destruct (read_bytes n t1) as [[[? ?] ?]| |]; cbn [bind]; congruence.
Qed.
Lemma readbk_bytes_fuel n : forall t, readbk_bytes n t <> NoFuel.
Proof.
  induction n as [|n IH]; intros t; cbn [readbk_bytes]; [discriminate|]. pose proof (readbk_byte_fuel t 0).
  destruct (tape_readbk_byte t 0) as [[[t1 s] b]| |]; cbn [bind]; try congruence. specialize (IH t1).
  destruct s; try discriminate. destruct (readbk_bytes n t1) as [[[? ?] ?]| |]; cbn [bind]; congruence.
Qed.
Lemma write_byte_fuel t d : tape_write_byte t d <> NoFuel.
Proof.
  unfold tape_write_byte. destruct (t_att t); cbn [negb]; [|discriminate].
  match goal with |- match ?o with Some _ => _ | None => _ end <> _ => destruct o end; [|discriminate].
  destruct (Nat.ltb _ _); discriminate.
Qed.
Lemma write_bytes_fuel l : forall t, write_bytes t l <> NoFuel.
Proof.
  induction l as [|b l IH]; intros t; cbn [write_bytes]; [discriminate|]. pose proof (write_byte_fuel t b).
  destruct (tape_write_byte t b) as [[t1 s]| |]; cbn [bind]; try congruence. destruct s; try discriminate. apply IH.
Qed.
Lemma write_prevs_fuel l : forall t, write_prevs t l <> NoFuel.
Proof.
  induction l as [|b l IH]; intros t; cbn [write_prevs]; [discriminate|].
  assert (tape_write_prev t b <> NoFuel).
  { unfold tape_write_prev. destruct (t_att t); cbn [negb]; [|discriminate]. destruct (_ && _); [destruct (Nat.ltb _ _); discriminate|].
    destruct (_ || _); discriminate. }
  destruct (tape_write_prev t b) as [[t1 s]| |]; cbn [bind]; try congruence. destruct s; try discriminate. apply IH.
Qed.

Lemma skip_back_ends n : forall t d, tap_like (t_fmt t) -> t_func t = FRdback -> t_mark t = false -> t_att t = true ->
  t_lrecl t < 4294967296 -> t_lrecl t <= Z.of_nat n -> skip_back n t d <> NoFuel.
Proof.
  induction n as [|n IH]; intros t d TL FU MK A L1 L2; cbn [skip_back].
  - replace (0 <? t_lrecl t) with false by lia. discriminate.
  - destruct (Z.ltb_spec 0 (t_lrecl t)); [|discriminate].
    pose proof (readbk_byte_rec t d) as X. pose proof (readbk_byte_fuel t d) as Y.
    assert (E : tape_read_frame t d = let* x := tape_readbk_byte t d in
        let '(t1, s, b) := x in
        Ok (set_frame (set_lrecl t1 (u32 (t_lrecl t1 - 1))) (t_frame t1 - (if t_hi t then 1 else 2)), s, b)).
    { unfold tape_read_frame. rewrite A, MK, FU. cbn [negb]. replace (t_lrecl t =? 0) with false by lia.
      destruct TL as [-> | ->]; reflexivity. }
    rewrite E. destruct (tape_readbk_byte t d) as [[[t1 s] b]| |]; cbn [bind]; try congruence; try discriminate.
    destruct X as [X1 [X2 [X3 [X4 [X5 X6]]]]].
    apply IH; cbn [t_fmt t_func t_mark t_att t_lrecl t_orecl set_frame set_lrecl]; unfold u32; rewrite ?X1, ?X2, ?X3, ?X4, ?X5, ?X6; auto; try lia;
      rewrite Z.mod_small by lia; lia.
Qed.

Lemma finish_ends n junk t : t_fmt t <> P7B -> 0 <= t_lrecl t < 4294967296 -> 0 <= t_orecl t < 4294967296 ->
  t_orecl t <= Z.of_nat n -> t_lrecl t <= Z.of_nat n -> tape_finish_rec n junk t <> NoFuel.
Proof.
  intros F L O N1 N2. unfold tape_finish_rec. destruct (t_att t) eqn:A; cbn [negb]; [|discriminate].
  assert (RD : tap_like (t_fmt t) -> t_mark t = false -> t_func t = FRead -> (let* x := skip_forw n t junk in
        let '(t1, _) := x in
        let* t2 := match t_fmt t1 with
                   | TAP => if Z.odd (t_orecl t1) then
                              let* y := tape_read_byte t1 0 in let '(t', _, _) := y in Ok t'
                            else Ok t1
                   | _ => Ok t1
                   end in
        let* y := read_bytes 4 t2 in
        let '(t3, s, l) := y in
        match s with
        | SOk => Ok (finish_end (set_lrecl t3 (word_of l)))
        | _ => Ok (t3, s)
        end) <> NoFuel).
  { intros TL MK FU. pose proof (skip_forw_ends n t junk TL FU MK A ltac:(lia) ltac:(lia) ltac:(lia)) as X.
    destruct (skip_forw n t junk) as [[t1 d1]| |]; cbn [bind]; try congruence; try discriminate.
    assert (G : forall t2, (let* y := read_bytes 4 t2 in let '(t3, s, l) := y in
        match s with SOk => Ok (finish_end (set_lrecl t3 (word_of l))) | _ => Ok (t3, s) end) <> NoFuel).
    { intros t2. pose proof (read_bytes_fuel 4 t2) as Y. destruct (read_bytes 4 t2) as [[[? s] ?]| |]; cbn [bind]; try congruence.
      destruct s; discriminate. }
    destruct (t_fmt t1); cbn [bind]; try apply G. destruct (Z.odd (t_orecl t1)); cbn [bind]; try apply G.
    pose proof (read_byte_fuel t1 0). destruct (tape_read_byte t1 0) as [[[? ?] ?]| |]; cbn [bind]; try apply G; congruence. }
  assert (RB : tap_like (t_fmt t) -> t_mark t = false -> t_func t = FRdback -> (let* x := skip_back n t junk in
        let '(t1, _) := x in
        let* y := readbk_bytes 4 t1 in
        let '(t2, s, l) := y in
        match s with
        | SOk => Ok (finish_end (set_lrecl t2 (word_of (rev l))))
        | _ => Ok (t2, s)
        end) <> NoFuel).
  { intros TL MK FU. pose proof (skip_back_ends n t junk TL FU MK A ltac:(lia) ltac:(lia)) as X.
    destruct (skip_back n t junk) as [[t1 d1]| |]; cbn [bind]; try congruence; try discriminate.
    pose proof (readbk_bytes_fuel 4 t1). destruct (readbk_bytes 4 t1) as [[[? s] ?]| |]; cbn [bind]; try congruence; destruct s; discriminate. }
  assert (G : forall t1, (let l := bytes_of (t_lrecl t1) in
        let* y := write_prevs t1 l in
        let '(t2, s2) := y in
        match s2 with
        | SOk =>
          let* z := write_bytes t2 l in
          let '(t3, s3) := z in
          match s3 with SOk => Ok (finish_end t3) | _ => Ok (t3, s3) end
        | _ => Ok (t2, s2)
        end) <> NoFuel).
  { intros t1. cbn zeta. pose proof (write_prevs_fuel (bytes_of (t_lrecl t1)) t1) as Y.
    destruct (write_prevs t1 (bytes_of (t_lrecl t1))) as [[t2 s2]| |]; cbn [bind]; try congruence; destruct s2; try discriminate.
    pose proof (write_bytes_fuel (bytes_of (t_lrecl t1)) t2) as Y2.
    destruct (write_bytes t2 (bytes_of (t_lrecl t1))) as [[t3 s3]| |]; cbn [bind]; try congruence; destruct s3; discriminate. }
  unfold tap_like in *. destruct (t_fmt t) eqn:FM; [| |congruence|discriminate].
  all: destruct (t_mark t) eqn:MK; [discriminate|].
  all: destruct (t_func t) eqn:FU; try discriminate; try (apply RD; auto; fail); try (apply RB; auto; fail); cbn [bind]; try apply G.
  destruct (Z.odd (t_lrecl t)); cbn [bind]; [|apply G].
  pose proof (write_byte_fuel t 0). destruct (tape_write_byte t 0) as [[t1 ?]| |]; cbn [bind]; try apply G; congruence.
Qed.

(** *** Byte moves *)
Lemma do_moves_ok l : forall t c k, on t c k -> t_bot t = false -> t_eot t = false ->
  exists t', do_moves l t = Ok (t', moves_on c k l) /\ bytes_on t' = c.
Proof.
  induction l as [|m l IH]; intros t c k O1 B ET; [exists t; split; [reflexivity|apply O1]|].
  pose proof (on_le _ _ _ O1) as KL. destruct m; cbn [do_moves do_move moves_on].
  - destruct (nth_error c k) as [b|] eqn:N.
    + destruct (read_byte_on t c k 0 O1) as [w' [b' [N' [E [O2 R]]]]]; [apply nth_error_Some; congruence|].
      rewrite E. cbn [bind]. destruct (IH _ _ _ O2 B ET) as [t' [E' C']]. exists t'. rewrite E'. cbn [bind].
      split; [congruence|exact C'].
    + apply nth_error_None in N. replace k with (length c) in O1 by lia.
      destruct (read_byte_end t c 0 O1) as [w' [E [O2 R]]]. rewrite E. cbn [bind]. eexists. split; [reflexivity|]. apply O2.
  - destruct k as [|k].
    + destruct (readbk_byte_start t c 0 O1 B) as [w' [b [E [O2 R]]]]. rewrite E. cbn [bind]. eexists. split; [reflexivity|]. apply O2.
    + destruct (readbk_byte_on t c k 0 O1 B ET) as [w' [b [N [E [O2 R]]]]]. rewrite N, E. cbn [bind].
      destruct (IH _ _ _ O2 B ET) as [t' [E' C']]. exists t'. rewrite E'. cbn [bind]. auto.
  - destruct (peek_byte_on t c k 0 O1) as [w' [O2 [R E]]]. rewrite E. cbn [bind]. destruct (nth_error c k) as [b|].
    + destruct (IH _ _ _ O2 B ET) as [t' [E' C']]. exists t'. rewrite E'. auto.
    + eexists. split; [reflexivity|]. apply O2.
Qed.

(** *** Walking up and down *)
Section Walk.
Variables (f : tfmt) (l : list item) (n : nat) (junk : Z).
Let c := encode f l.
Let off i := length (encode f (firstn i l)).
Definition at_item (t : tape) (i : nat) : Prop :=
  on t c (off i) /\ t_fmt t = f /\ (t_eot t = true -> i = length l) /\ (t_bot t = true -> i = 0%nat).
Hypothesis Hforw : forall t i x, nth_error l i = Some x -> on t c (off i) -> t_fmt t = f -> t_eot t = false ->
  exists t', read_item n junk false t = Ok (t', GItem x) /\ on t' c (off (S i)) /\ t_fmt t' = f /\ t_eot t' = false /\ t_bot t' = false.
Hypothesis Hend : forall t, on t c (length c) -> t_fmt t = f -> t_eot t = false ->
  exists t', read_item n junk false t = Ok (t', GEnd) /\ on t' c (length c) /\ t_fmt t' = f /\ t_bot t' = false.
Hypothesis Hback : forall t j x, nth_error l j = Some x -> on t c (off (S j)) -> t_fmt t = f -> t_bot t = false ->
  exists t', read_item n junk true t = Ok (t', GItem (mirror x)) /\ on t' c (off j) /\ t_fmt t' = f /\ t_eot t' = false /\ t_bot t' = false.
Hypothesis Hstart : forall t, on t c 0 -> t_fmt t = f -> t_bot t = false ->
  exists t', read_item n junk true t = Ok (t', GStart) /\ on t' c 0 /\ t_fmt t' = f /\ t_eot t' = false.

Lemma off_all : off (length l) = length c. Proof. unfold off, c. rewrite firstn_all. reflexivity. Qed.
Lemma walk_ok dirs : forall t i, at_item t i -> (i <= length l)%nat ->
  exists t', read_walk dirs n junk t = Ok (t', walk_on l i dirs).
Proof.
  induction dirs as [|b dirs IH]; intros t i [O1 [F [ET BT]]] Hi; [exists t; reflexivity|].
  assert (A : t_att t = true) by apply O1.
  destruct b; cbn [read_walk walk_on].
  - destruct i as [|j].
    + destruct (t_bot t) eqn:B.
      * unfold read_item at 1, tape_read_back. rewrite A. cbn [negb set_mark set_eot t_bot]. rewrite B. cbn [bind].
        destruct (IH (set_mark (set_eot t false) false) 0%nat) as [t' E]; [|lia|exists t'; rewrite E; reflexivity].
        refine (conj O1 (conj F (conj _ _))); [intros X; discriminate|reflexivity].
      * destruct (Hstart t O1 F B) as [t1 [E1 [O2 [F2 ET2]]]]. rewrite E1. cbn [bind].
        destruct (IH t1 0%nat) as [t' E]; [|lia|exists t'; rewrite E; reflexivity].
        refine (conj O2 (conj F2 (conj _ _))); [congruence|reflexivity].
    + assert (B : t_bot t = false) by (destruct (t_bot t); [specialize (BT eq_refl); discriminate|reflexivity]).
      destruct (nth_error l j) as [x|] eqn:N; [|apply nth_error_None in N; lia].
      destruct (Hback t j x N O1 F B) as [t1 [E1 [O2 [F2 [ET2 B2]]]]]. rewrite E1. cbn [bind].
      destruct (IH t1 j) as [t' E]; [|lia|exists t'; rewrite E; reflexivity].
      refine (conj O2 (conj F2 (conj _ _))); congruence.
  - destruct (nth_error l i) as [x|] eqn:N.
    + assert (Li : (i < length l)%nat) by (apply nth_error_Some; congruence).
      assert (ET2 : t_eot t = false) by (destruct (t_eot t); [specialize (ET eq_refl); lia|reflexivity]).
      destruct (Hforw t i x N O1 F ET2) as [t1 [E1 [O2 [F2 [E2 B2]]]]]. rewrite E1. cbn [bind].
      destruct (IH t1 (S i)) as [t' E]; [|lia|exists t'; rewrite E; reflexivity].
      refine (conj O2 (conj F2 (conj _ _))); congruence.
    + apply nth_error_None in N. assert (i = length l) by lia. subst i.
      destruct (t_eot t) eqn:E0.
      * unfold read_item at 1, tape_read_forw. rewrite A. cbn [negb set_mark set_bot set_parity t_eot]. rewrite E0. cbn [bind].
        match goal with |- context [read_walk dirs n junk ?t0] => destruct (IH t0 (length l)) as [t' E] end;
          [|lia|exists t'; rewrite E; reflexivity].
        refine (conj O1 (conj F (conj _ _))); [reflexivity|intros X; discriminate].
      * rewrite off_all in O1. destruct (Hend t O1 F E0) as [t1 [E1 [O2 [F2 B2]]]]. rewrite E1. cbn [bind].
        destruct (IH t1 (length l)) as [t' E]; [|lia|exists t'; rewrite E; reflexivity].
        rewrite <- off_all in O2. refine (conj O2 (conj F2 (conj _ _))); [reflexivity|congruence].
Qed.
End Walk.

Lemma split_item f l : forall i x, nth_error l i = Some x ->
  encode f l = encode f (firstn i l) ++ encode1 f x ++ encode f (skipn (S i) l) /\
  length (encode f (firstn (S i) l)) = (length (encode f (firstn i l)) + length (encode1 f x))%nat.
Proof.
  unfold encode. induction l as [|y l IH]; intros [|i] x N; cbn [nth_error] in N; try discriminate.
  - injection N as ->. cbn [firstn skipn flat_map app length]. split; [reflexivity|]. rewrite app_nil_r. reflexivity.
  - destruct (IH i x N) as [E1 E2]. cbn [firstn skipn flat_map]. split.
    + rewrite E1 at 1. rewrite <- app_assoc. reflexivity.
    + cbn [firstn] in E2. rewrite (app_length (encode1 f y)), E2, !app_length. lia.
Qed.
Lemma Forall_nth {A} (P : A -> Prop) l i x : Forall P l -> nth_error l i = Some x -> P x.
Proof. intros H N. rewrite Forall_forall in H. apply H. eapply nth_error_In; eauto. Qed.

Lemma walk_tap f l n junk dirs t : tap_like f -> Forall (good_item f) l -> fits n l ->
  at_item f l t 0 -> exists t', read_walk dirs n junk t = Ok (t', walk_on l 0 dirs).
Proof.
  intros TL G FT AT. apply (walk_ok f l n junk); try exact AT; [| | | |lia].
  - intros t0 i x N O1 F ET. destruct (split_item f l i x N) as [E1 E2]. rewrite E1 in O1.
    destruct (read_item_tap t0 f _ x _ n junk O1 TL F ET (Forall_nth _ _ _ _ G N)) as [t' [E [O2 [AL B]]]].
    { exact (Forall_nth _ _ _ _ FT N). }
    exists t'. split; [exact E|]. rewrite E2. rewrite <- E1 in O2. destruct AL as [F1 [_ [ET1 _]]]. split; [exact O2|]. repeat split; congruence.
  - intros t0 O1 F ET. rewrite <- F in TL. destruct (read_forw_end t0 _ O1 TL ET) as [t' [E [O2 [F2 [B2 ET2]]]]].
    exists t'. unfold read_item. rewrite E. cbn [bind]. repeat split; try apply O2; congruence.
  - intros t0 j x N O1 F B. destruct (split_item f l j x N) as [E1 E2]. rewrite E1, E2 in O1.
    destruct (read_item_tap_back t0 f _ x _ n junk O1 TL F B (Forall_nth _ _ _ _ G N)) as [t' [E [O2 [AL B2]]]].
    { exact (Forall_nth _ _ _ _ FT N). }
    exists t'. split; [exact E|]. rewrite <- E1 in O2. destruct AL as [F1 [_ [ET1 _]]]. cbn in F1, ET1. split; [exact O2|]. repeat split; congruence.
  - intros t0 O1 F B. rewrite <- F in TL. destruct (read_back_start t0 _ O1 TL B) as [t' [E [O2 [AL B2]]]].
    exists t'. unfold read_item. rewrite E. cbn [bind]. destruct AL as [F1 [_ [ET1 _]]]. cbn in F1, ET1.
    repeat split; try apply O2; congruence.
Qed.

Lemma p7b_end t c : on t c (length c) -> t_fmt t = P7B -> t_eot t = false ->
  exists t', tape_read_forw t = Ok (t', SEot) /\ on t' c (length c) /\ t_fmt t' = P7B /\ t_bot t' = false.
Proof.
  intros O1 F ET. assert (A : t_att t = true) by apply O1.
  unfold tape_read_forw. rewrite A. cbn [negb set_mark set_bot set_parity set_func t_eot t_fmt]. rewrite ET, F.
  match goal with |- context [tape_peek_byte ?t0 0] => assert (O2 : on t0 c (length c)) by exact O1; set (t1 := t0) in * end.
  destruct (peek_byte_on _ _ _ 0 O2) as [w' [O3 [R E]]]. rewrite E.
  assert (N : nth_error c (length c) = None) by (apply nth_error_None; lia). rewrite N. cbn [bind].
  eexists. split; [reflexivity|]. split; [exact O3|]. cbn. auto.
Qed.
Lemma p7b_start t c : on t c 0 -> t_fmt t = P7B -> t_bot t = false ->
  exists t', tape_read_back t = Ok (t', SBot) /\ on t' c 0 /\ t_fmt t' = P7B /\ t_eot t' = false.
Proof.
  intros O1 F B. assert (A : t_att t = true) by apply O1.
  unfold tape_read_back. rewrite A. cbn [negb set_mark set_eot set_parity set_func t_bot t_fmt]. rewrite B, F.
  match goal with |- context [tape_readbk_byte ?t0 0] => assert (O2 : on t0 c 0) by exact O1; set (t1 := t0) in * end.
  destruct (readbk_byte_start t1 c 0 O2 B) as [w' [b [E [O3 R]]]]. rewrite E. cbn [bind].
  eexists. split; [reflexivity|]. split; [exact O3|]. cbn. auto.
Qed.
Lemma closed_skip l : forall post i d, closed l post -> nth_error l i = Some (Rec d) ->
  closed (Rec d :: skipn (S i) l) post.
Proof.
  induction l as [|x l IH]; intros post [|i] d CL N; cbn [nth_error] in N; try discriminate.
  - injection N as ->. exact CL.
  - cbn [skipn]. apply IH; [|exact N]. destruct l as [|y l]; [destruct i; discriminate|]. destruct x; exact CL.
Qed.
Lemma walk_p7b l n junk dirs t : Forall (good_item P7B) l -> fits n l -> closed l [] ->
  at_item P7B l t 0 -> exists t', read_walk dirs n junk t = Ok (t', walk_on l 0 dirs).
Proof.
  intros G FT CL AT. apply (walk_ok P7B l n junk); try exact AT; [| | | |lia].
  - intros t0 i x N O1 F ET. destruct (split_item P7B l i x N) as [E1 E2]. rewrite E1 in O1.
    destruct (read_item_p7b t0 _ x _ n junk O1 F ET (Forall_nth _ _ _ _ G N)) as [t' [E [O2 [AL B]]]].
    { pose proof (Forall_nth _ _ _ _ FT N) as X. cbn beta in X. destruct x as [d|]; [|exact I]. split; [exact X|].
      pose proof (closed_skip l [] i d CL N) as Y. destruct (skipn (S i) l) as [|y r] eqn:Es; [exact Y|].
      assert (Gy : good_item P7B y).
      { rewrite Forall_forall in G. apply G. rewrite <- (firstn_skipn (S i) l). apply in_or_app. right. rewrite Es. left. reflexivity. }
      apply encode_start; [|discriminate].
      rewrite <- Es. rewrite Forall_forall in G |- *. intros z Hz. apply G. rewrite <- (firstn_skipn (S i) l). apply in_or_app. right. exact Hz. }
    exists t'. split; [exact E|]. rewrite E2. rewrite <- E1 in O2. destruct AL as [F1 [_ [ET1 _]]]. split; [exact O2|]. repeat split; congruence.
  - intros t0 O1 F ET. destruct (p7b_end t0 _ O1 F ET) as [t' [E [O2 [F2 B2]]]].
    exists t'. unfold read_item. rewrite E. cbn [bind]. repeat split; try apply O2; congruence.
  - intros t0 j x N O1 F B. destruct (split_item P7B l j x N) as [E1 E2]. rewrite E1, E2 in O1.
    destruct (read_item_p7b_back t0 _ x _ n junk O1 F B (Forall_nth _ _ _ _ G N)) as [t' [E [O2 [AL B2]]]].
    { exact (Forall_nth _ _ _ _ FT N). }
    exists t'. split; [exact E|]. rewrite <- E1 in O2. destruct AL as [F1 [_ [ET1 _]]]. cbn in F1, ET1. split; [exact O2|]. repeat split; congruence.
  - intros t0 O1 F B. destruct (p7b_start t0 _ O1 F B) as [t' [E [O2 [F2 ET2]]]].
    exists t'. unfold read_item. rewrite E. cbn [bind]. repeat split; try apply O2; congruence.
Qed.
Lemma attach_item f l d0 ring hi : length (w_buf (t_win d0)) = BS -> at_item f l (tape_attach d0 (encode f l) f ring hi) 0.
Proof.
  intros H. refine (conj (attach_on d0 _ f ring hi H) (conj eq_refl (conj _ _))); [intros X; discriminate|reflexivity].
Qed.

(** *** Reading exactly one window *)
Lemma read_bytes_win n : forall t, t_att t = true -> win_ok (t_win t) -> (w_pb (t_win t) + n <= w_lb (t_win t))%nat ->
  exists l, read_bytes n t = Ok (set_win t (let w := t_win t in Win (w_file w) (w_ro w) (w_pos w) (w_pb w + n) (w_lb w) (w_dirty w) (w_buf w)), SOk, l).
Proof.
  induction n as [|n IH]; intros t A H L.
  - exists []. cbn [read_bytes]. rewrite Nat.add_0_r. destruct t as [w ? ? ? ? ? ? ? ? ? ? ? ? ? ? ? ?]; destruct w; reflexivity.
  - cbn [read_bytes]. unfold tape_read_byte. rewrite A. cbn [negb]. unfold advance_win. pose proof H as [H1 [H2 [H3 [H4 H5]]]].
    destruct (Nat.leb_spec (w_lb (t_win t)) (w_pb (t_win t))); [lia|]. destruct (Nat.eqb_spec (w_lb (t_win t)) 0); [lia|]. cbn [orb].
    destruct (buf_at_ok (t_win t) (w_pb (t_win t)) H ltac:(lia)) as [b Eb]. rewrite Eb. cbn [bind].
    match goal with |- context [read_bytes n ?t0] => destruct (IH t0) as [l E] end.
    + exact A.
    + cbn [t_win set_win]. okk; cbn [w_buf w_pb w_lb w_pos w_file w_dirty]; [exact H1|lia|exact H3|exact H4|exact H5].
    + cbn [t_win set_win w_pb w_lb]. lia.
    + rewrite E. cbn [bind t_win set_win w_file w_ro w_pos w_pb w_lb w_dirty w_buf]. exists (b :: l).
      replace (S (w_pb (t_win t)) + n)%nat with (w_pb (t_win t) + S n)%nat by lia. reflexivity.
Qed.
Lemma read_window_then_write d0 c f hi b : length (w_buf (t_win d0)) = BS -> (BS <= length c)%nat ->
  exists t1 l t2, read_bytes BS (tape_attach d0 c f true hi) = Ok (t1, SOk, l) /\ at_byte t1 = BS /\
    tape_write_byte t1 b = Ok (t2, SOk) /\ bytes_on t2 = overwrite c 0 [b] /\ at_byte t2 = 1%nat.
Proof.
  intros HB HL. set (t0 := tape_attach d0 c f true hi). pose proof (attach_on d0 c f true hi HB) as O0. fold t0 in O0.
  destruct (peek_byte_on t0 c 0 0 O0) as [w1 [O1 [R1 E1]]].
  assert (exists w1, advance_win (t_win t0) = Some (w1, false) /\ win_ok w1 /\ w_pb w1 = O /\ w_lb w1 = BS /\ w_pos w1 = O /\ w_dirty w1 = false /\
    w_file w1 = c) as [wa [Ea [Oa [Pa [La [Qa [Da Fa]]]]]]].
  { unfold advance_win. cbn [t0 t_win tape_attach w_lb w_pb Nat.leb Nat.eqb orb flush w_dirty w_pos plus].
    set (wf := Win c (negb true) 0 0 0 false (w_buf (t_win d0))).
    destruct (fill_ok wf 0 HB eq_refl (Nat.le_0_l _)) as [Q1 [_ [Q3 [Q4 [Q5 [Q6 [_ Q8]]]]]]].
    change (w_file wf) with c in *. rewrite Nat.sub_0_r, Nat.min_l in Q5 by exact HL. exists (fill wf 0).
    rewrite Q5. pose proof BS_pos. destruct (Nat.eqb_spec BS 0); [lia|]. split; [reflexivity|].
    split; [exact Q1|]. split; [exact Q4|]. split; [reflexivity|]. split; [exact Q3|]. split; [exact Q6|exact Q8]. }
  assert (ER : forall n, (0 < n)%nat -> read_bytes n t0 = read_bytes n (set_win t0 wa)).
  { intros [|n] Hn; [lia|]. cbn [read_bytes]. unfold tape_read_byte. rewrite Ea. cbn [t_win set_win t_att].
    assert (advance_win wa = Some (wa, false)) as ->.
    { unfold advance_win. rewrite Pa, La. pose proof BS_pos. destruct (Nat.leb_spec BS 0); [lia|]. destruct (Nat.eqb_spec BS 0); [lia|]. reflexivity. }
    reflexivity. }
  rewrite ER by (pose proof BS_pos; lia).
  destruct (read_bytes_win BS (set_win t0 wa) eq_refl Oa) as [l El]; [cbn [t_win set_win]; lia|].
  rewrite El. cbn [t_win set_win]. rewrite Pa, La, Qa, Da, Fa. cbn [plus].
  match goal with |- context [Ok (?t, SOk, l)] => set (t1 := t) end.
  destruct (write_byte_wrong t1 b eq_refl) as [w2 [E2 [O2 [C2 K2]]]]; [|reflexivity|reflexivity|].
  { cbn [t1 t_win set_win]. pose proof Oa as [H1 [H2 [H3 [H4 H5]]]]. rewrite La, Qa, Da, Fa in *.
    okk; cbn [w_buf w_pb w_lb w_pos w_file w_dirty]; [exact H1|apply Nat.le_refl|apply Nat.le_refl|exact H4|exact H5]. }
  exists t1, l, (set_win t1 w2). split; [reflexivity|]. split; [reflexivity|]. split; [exact E2|].
  assert (at_byte t1 = BS) by reflexivity. rewrite H, Nat.sub_diag in C2, K2. split; [exact C2|exact K2].
Qed.
