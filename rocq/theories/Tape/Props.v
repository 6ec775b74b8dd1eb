(** Properties C20-C29 and C48: tape images. *)
From Verif Require Import Base.Bits Tape.Model Tape.Spec Tape.Window Tape.Safety Tape.Records Tape.Tap Tape.P7b Tape.Ends.

(** A drive whose buffer has the declared size (every drive: the buffer is an array). *)
Definition drive (d : tape) : Prop := length (w_buf (t_win d)) = BS.
Lemma new_drive_ok : drive new_drive. Proof. apply repeat_length. Qed.

(** *** C20.  Without a ring, the three operations that start writing only report write protect, and whatever calls
    are made on the drive, the file stays as it is. *)
Theorem C20_write_protect_partial :
  (forall t, t_att t = true -> t_ring t = false ->
     tape_write_start t = Ok (t, SWrp) /\ tape_write_mark t = Ok (t, SWrp) /\ tape_erase_gap t = Ok (t, SWrp)) /\
  (forall d f ty hi l, drive d ->
     match do_calls (tape_attach d f ty false hi) l with
     | Ok (t, _) => w_file (t_win t) = f /\ snd (tape_detach t) = f
     | UB => False
     | NoFuel => True
     end).
Proof.
  split.
  - intros t A R. unfold tape_erase_gap, tape_write_start, tape_write_mark. rewrite A, R. repeat split.
  - intros d f ty hi l H. assert (K : kept true f (t_win (tape_attach d f ty false hi))).
    { sty; [apply (attach_on d f ty false hi H)|reflexivity|reflexivity]. }
    pose proof (calls_kept true f l _ K) as X. destruct (do_calls (tape_attach d f ty false hi) l) as [[t ss]| |]; auto.
    destruct X as [_ [R F]]. specialize (F eq_refl). split; [exact F|].
    unfold tape_detach. cbn [snd]. unfold flush. rewrite R. destruct (w_dirty (t_win t)); exact F.
Qed.
Print Assumptions C20_write_protect_partial.
Example C20_met : drive new_drive /\ t_att (tape_attach new_drive [1; 2] TAP false true) = true.
Proof. split; [exact new_drive_ok|reflexivity]. Qed.
(** But a frame is taken without looking at the ring, moves the tape, and is later read in place of the byte on it. *)
Theorem C20_frame_refuted :
  exists f b, match do_calls (tape_attach new_drive f E11 false true) [CWriteFrame b] with
              | Ok (t, ss) => ss = [SOk] /\ at_byte t = 1%nat /\ bytes_on t <> f
              | _ => False
              end.
Proof. exists [1; 2], 7. vm_compute. repeat split. discriminate. Qed.
Print Assumptions C20_frame_refuted.

(** *** C21.  From any position, whatever the window looks like: reading bytes forward, backward and looking at the next
    byte delivers the bytes of the tape, until an end is reached. *)
Theorem C21_reading_is_transparent :
  forall t moves, t_att t = true -> win_ok (t_win t) -> can_flush (t_win t) -> t_bot t = false -> t_eot t = false ->
  exists t', do_moves moves t = Ok (t', moves_on (bytes_on t) (at_byte t) moves) /\ bytes_on t' = bytes_on t.
Proof.
  intros t l A H C B ET. apply do_moves_ok; auto. exact (conj A (conj H (conj C (conj eq_refl eq_refl)))).
Qed.
Print Assumptions C21_reading_is_transparent.
Definition ex_tape : tape := set_bot (tape_attach new_drive [10; 20; 30] TAP true true) false.
Example C21_met : t_att ex_tape = true /\ win_ok (t_win ex_tape) /\ can_flush (t_win ex_tape) /\ t_bot ex_tape = false /\ t_eot ex_tape = false /\
  moves_on (bytes_on ex_tape) (at_byte ex_tape) [MForw; MForw; MBack; MPeek; MForw; MForw; MForw] =
    [(SOk, 10); (SOk, 20); (SOk, 20); (SOk, 20); (SOk, 20); (SOk, 30); (SEot, 0)].
Proof.
  pose proof (attach_on new_drive [10; 20; 30] TAP true true new_drive_ok) as [A [H [C _]]].
  refine (conj A (conj H (conj C (conj eq_refl (conj eq_refl eq_refl))))).
Qed.

(** *** C22.  Writing any bytes at any position: afterwards the tape, and the file once the tape is taken off or the
    rewind is started, hold the old bytes overwritten from that position.  The window must not be one that has just
    been read to its very end. *)
Theorem C22_writing_is_transparent_partial :
  forall t data, t_att t = true -> win_ok (t_win t) -> w_ro (t_win t) = false -> write_ready (t_win t) ->
  let want := overwrite (bytes_on t) (at_byte t) data in
  exists t', write_bytes t data = Ok (t', SOk) /\ bytes_on t' = want /\ at_byte t' = (at_byte t + length data)%nat /\
    snd (tape_detach t') = want /\ w_file (t_win (fst (tape_start_rewind t'))) = want /\ snd (tape_start_rewind t') = SOk.
Proof.
  intros t l A H R W want.
  destruct (write_bytes_on l t (bytes_on t) (at_byte t) (conj A (conj H (conj R (conj W (conj eq_refl eq_refl)))))) as [w' [E [W' D]]].
  exists (set_win t w'). split; [exact E|]. pose proof W' as [_ [O1 [R1 [_ [C1 K1]]]]]. split; [exact C1|]. split; [exact K1|].
  split; [|destruct (start_rewind_on _ _ _ (won_on _ _ _ W')) as [w2 [E2 [_ [F2 _]]]]; rewrite E2; split; [exact F2|reflexivity]].
  fold want in C1. rewrite <- C1. unfold tape_detach, bytes_on, content, flush. cbn [t_win set_win snd w_file] in *. rewrite R1.
  destruct (w_dirty w'); reflexivity.
Qed.
Print Assumptions C22_writing_is_transparent_partial.
Example C22_met : t_att ex_tape = true /\ win_ok (t_win ex_tape) /\ w_ro (t_win ex_tape) = false /\ write_ready (t_win ex_tape) /\
  overwrite (bytes_on ex_tape) (at_byte ex_tape) [7; 8] = [7; 8; 30].
Proof.
  pose proof (attach_won new_drive [10; 20; 30] TAP true new_drive_ok) as [A [H [R [W _]]]].
  refine (conj A (conj H (conj R (conj W eq_refl)))).
Qed.
(** On any tape of at least 32768 bytes: read 32768 bytes from load point and write one.  It replaces the first byte of
    the tape instead of the one under the head. *)
Theorem C22_after_reading_a_window_refuted :
  forall d c f hi b, drive d -> (BS <= length c)%nat ->
  exists t1 l t2, read_bytes BS (tape_attach d c f true hi) = Ok (t1, SOk, l) /\ at_byte t1 = BS /\
    tape_write_byte t1 b = Ok (t2, SOk) /\ bytes_on t2 = overwrite c 0 [b] /\ at_byte t2 = 1%nat.
Proof. exact read_window_then_write. Qed.
Print Assumptions C22_after_reading_a_window_refuted.
Example C22_refutation_met : (BS <= length (repeat 1%Z BS))%nat. Proof. rewrite repeat_length. apply Nat.le_refl. Qed.

(** *** C23.  Any list of records and marks written from load point over any old tape is, after rewinding in steps of any
    size, read back as the same list; then end of tape if nothing was left behind it. *)
Theorem C23_records_read_back :
  forall d c f hi l n junk sz, drive d -> t_parity d = false -> (f = TAP \/ f = E11) -> Forall (good_item f) l -> fits n l -> 0 < sz ->
  exists t1 t2 k t3 t4,
    write_items (tape_attach d c f true hi) l = Ok (t1, SOk) /\ tape_start_rewind t1 = (t2, SOk) /\
    w_file (t_win t2) = overwrite c 0 (encode f l) /\
    rewind_steps k sz t2 = (t3, SBot) /\
    read_items (length l) n junk false t3 = Ok (t4, map GItem l) /\
    ((length c <= length (encode f l))%nat -> exists t5, read_item n junk false t4 = Ok (t5, GEnd)).
Proof.
  intros d c f hi l n junk sz HB PA TL G FT Hs.
  destruct (round_trip d c f hi l n junk 0 sz HB PA TL G FT Hs) as [t1 [t2 [E1 [E2 [E3 _]]]]].
  set (k := Z.to_nat (t_frame t2)).
  destruct (round_trip d c f hi l n junk k sz HB PA TL G FT Hs) as [t1' [t2' [E1' [E2' [_ X]]]]].
  assert (t1' = t1) by congruence. subst t1'. assert (t2' = t2) by congruence. subst t2'.
  destruct X as [t3 [t4 [X1 [X2 [_ X3]]]]]; [unfold k; nia|].
  exists t1, t2, (S k), t3, t4. auto 10.
Qed.
Print Assumptions C23_records_read_back.
Definition ex_items : list item := [Rec [1; 2; 3]; Mark; Rec [255]; Mark].
Example C23_met : Forall (good_item TAP) ex_items /\ fits 5 ex_items /\ t_parity new_drive = false /\
  encode TAP ex_items = [3;0;0;0; 1;2;3; 0; 3;0;0;0; 0;0;0;0; 1;0;0;0; 255; 0; 1;0;0;0; 0;0;0;0].
Proof.
  split; [|split; [|split; reflexivity]].
  - unfold ex_items. repeat constructor; try discriminate; cbn; lia.
  - unfold ex_items, fits. repeat constructor.
Qed.

(** *** C24.  Whatever way one goes up and down an image block by block, forward reads deliver the next block, backward
    reads the previous one with its bytes reversed, and the ends are reported as such.  For P7B the image must not end
    with a record (see C26). *)
Theorem C24_walking_a_tape_partial :
  forall d f l ring hi n junk dirs, drive d ->
  (f = TAP \/ f = E11 \/ (f = P7B /\ closed l [])) -> Forall (good_item f) l -> fits n l ->
  exists t', read_walk dirs n junk (tape_attach d (encode f l) f ring hi) = Ok (t', walk_on l 0 dirs).
Proof.
  intros d f l ring hi n junk dirs HB TL G FT. pose proof (attach_item f l d ring hi HB) as AT.
  destruct TL as [->|[->|[-> CL]]].
  - apply (walk_tap TAP); auto. left; reflexivity.
  - apply (walk_tap E11); auto. right; reflexivity.
  - apply walk_p7b; auto.
Qed.
Print Assumptions C24_walking_a_tape_partial.
Example C24_met : closed [Rec [1; 2; 3]; Mark] [] /\
  walk_on ex_items 0 [true; false; true; false; false; true; false; false; false; false; true] =
    [GStart; GItem (Rec [1; 2; 3]); GItem (Rec [3; 2; 1]); GItem (Rec [1; 2; 3]); GItem Mark; GItem Mark; GItem Mark;
     GItem (Rec [255]); GItem Mark; GEnd; GItem Mark].
Proof. split; [exact I|reflexivity]. Qed.

(** *** C25.  P7B: a list not ending with a record is read back. *)
Theorem C25_p7b_records_read_back_partial :
  forall d c hi l n junk sz, drive d -> t_parity d = false ->
  Forall (good_item P7B) l -> Forall (fun x => match x with Rec r => Z.of_nat (length r) < 4294967296 | Mark => True end) l ->
  fits n l -> closed l [] -> 0 < sz ->
  exists t1 t2 k t3 t4,
    write_items (tape_attach d c P7B true hi) l = Ok (t1, SOk) /\ tape_start_rewind t1 = (t2, SOk) /\
    w_file (t_win t2) = overwrite c 0 (encode P7B l) /\
    rewind_steps k sz t2 = (t3, SBot) /\
    read_items (length l) n junk false t3 = Ok (t4, map GItem l).
Proof.
  intros d c hi l n junk sz HB PA G GL FT CL Hs.
  destruct (round_trip_p7b d c hi l n junk 0 sz HB PA G GL FT CL Hs) as [t1 [t2 [E1 [E2 [E3 _]]]]].
  set (k := Z.to_nat (t_frame t2)).
  destruct (round_trip_p7b d c hi l n junk k sz HB PA G GL FT CL Hs) as [t1' [t2' [E1' [E2' [_ X]]]]].
  assert (t1' = t1) by congruence. subst t1'. assert (t2' = t2) by congruence. subst t2'.
  destruct X as [t3 [t4 [X1 X2]]]; [unfold k; nia|].
  exists t1, t2, (S k), t3, t4. auto 10.
Qed.
Print Assumptions C25_p7b_records_read_back_partial.
Example C25_met : let l := [Rec [1; 127]; Rec [3]; Mark] in
  Forall (good_item P7B) l /\ fits 5 l /\ closed l [] /\ encode P7B l = [129; 127; 131; 143].
Proof.
  cbn zeta. split; [|split; [|split; [exact I|reflexivity]]].
  - repeat constructor; try discriminate; cbn; lia.
  - unfold fits. repeat constructor.
Qed.
(** A record at the end of the tape: whatever it is, reading it to its end never finishes (unless the uninitialised
    variable used as the first data byte has its top bit set). *)
Theorem C25_last_record_refuted :
  forall d r ring hi n junk, drive d -> good_item P7B (Rec r) -> (length r < n)%nat -> Z.land junk 128 = 0 ->
  read_item n junk false (tape_attach d (encode P7B [Rec r]) P7B ring hi) = NoFuel.
Proof.
  intros d r ring hi n junk HB G Hn J. pose proof (attach_on d (encode P7B [Rec r]) P7B ring hi HB) as O1.
  unfold encode in O1 |- *. cbn [flat_map] in O1 |- *. rewrite app_nil_r in O1 |- *.
  apply (read_item_p7b_last _ [] r n junk O1 eq_refl eq_refl G Hn). unfold irg. rewrite J. reflexivity.
Qed.
Print Assumptions C25_last_record_refuted.
Example C25_refutation_met : good_item P7B (Rec [1; 2]) /\ Z.land 0 128 = 0.
Proof. split; [|reflexivity]. split; [discriminate|]. split; [repeat constructor; lia|discriminate]. Qed.

(** *** C26.  tape_finish_rec ends on SIMH and E11 tapes in any state, even an inconsistent one, after at most as many
    steps as the record is long. *)
Theorem C26_finish_ends_partial :
  forall t junk n, t_fmt t <> P7B -> 0 <= t_lrecl t < 4294967296 -> 0 <= t_orecl t < 4294967296 ->
  t_orecl t <= Z.of_nat n -> t_lrecl t <= Z.of_nat n -> tape_finish_rec n junk t <> NoFuel.
Proof. intros. apply finish_ends; auto. Qed.
Print Assumptions C26_finish_ends_partial.
Example C26_met : t_fmt ex_tape <> P7B /\ t_lrecl ex_tape = 0 /\ t_orecl ex_tape = 0.
Proof. split; [discriminate|split; reflexivity]. Qed.
(** On a P7B tape standing at the end of the file it never does. *)
Theorem C26_p7b_end_of_file_refuted :
  forall t junk n, t_att t = true -> win_ok (t_win t) -> can_flush (t_win t) -> at_byte t = length (bytes_on t) ->
  t_fmt t = P7B -> t_func t = FRead -> t_mark t = false -> t_lrecl t <> 2 -> Z.land junk 128 = 0 ->
  tape_finish_rec n junk t = NoFuel.
Proof.
  intros t junk n A H C K F FU MK LR J. apply (finish_eof n t (bytes_on t)); auto.
  - exact (conj A (conj H (conj C (conj eq_refl K)))).
  - unfold irg. rewrite J. reflexivity.
Qed.
Print Assumptions C26_p7b_end_of_file_refuted.
Example C26_refutation_met : let t := set_func (tape_attach new_drive [] P7B true true) FRead in
  t_att t = true /\ win_ok (t_win t) /\ can_flush (t_win t) /\ at_byte t = length (bytes_on t) /\ t_mark t = false /\ t_lrecl t <> 2.
Proof.
  pose proof (attach_on new_drive [] P7B true true new_drive_ok) as [A [H [C [E K]]]]. cbn zeta.
  refine (conj A (conj H (conj C (conj _ (conj eq_refl _))))); [|discriminate]. change (at_byte (tape_attach new_drive [] P7B true true) = length (@nil Z)).
  exact K.
Qed.

(** *** C27.  No sequence of calls without a write changes the file, or what is on the tape. *)
Theorem C27_reading_changes_nothing :
  forall d f ty ring hi l, drive d -> forallb (fun x => negb (is_write x)) l = true ->
  match do_calls (tape_attach d f ty ring hi) l with
  | Ok (t, _) => w_file (t_win t) = f /\ bytes_on t = f /\ snd (tape_detach t) = f
  | UB => False
  | NoFuel => True
  end.
Proof.
  intros d f ty ring hi l H L.
  assert (K : holds true f (t_win (tape_attach d f ty ring hi))).
  { destruct (attach_on d f ty ring hi H) as [_ [O1 [C [E _]]]]. exact (conj O1 (conj C (conj E (fun _ => eq_refl)))). }
  assert (RD : reading (tape_attach d f ty ring hi)) by (intros X; discriminate X).
  pose proof (do_calls_read true f l _ L RD K) as X.
  destruct (do_calls (tape_attach d f ty ring hi) l) as [[t ss]| |]; auto.
  destruct X as [_ [_ [E D]]]. specialize (D eq_refl). unfold content in E. rewrite D in E.
  split; [exact E|]. split; [unfold bytes_on, content; rewrite D; exact E|]. unfold tape_detach, flush. rewrite D. exact E.
Qed.
Print Assumptions C27_reading_changes_nothing.
Example C27_met : forallb (fun x => negb (is_write x)) [CReadForw; CReadFrame 0; CFinish 100 0; CReadBack; CFinish 100 0; CRewind; CRewindFrames 5] = true.
Proof. reflexivity. Qed.

(** *** C28.  Rewinding in steps of any size reaches load point, with everything on the tape unchanged; if end of tape had
    not been reported before, the next read is of the first block. *)
Theorem C28_rewind_partial :
  forall t sz, t_att t = true -> win_ok (t_win t) -> can_flush (t_win t) -> 0 < sz ->
  exists t1 k t2, tape_start_rewind t = (t1, SOk) /\ rewind_steps k sz t1 = (t2, SBot) /\
    tape_at_loadpt t2 = true /\ at_byte t2 = 0%nat /\ bytes_on t2 = bytes_on t /\ w_file (t_win t2) = bytes_on t /\
    (forall f x rest n junk, (f = TAP \/ f = E11) -> t_fmt t = f -> t_eot t = false -> bytes_on t = encode1 f x ++ rest -> good_item f x ->
       fits n [x] -> exists t3, read_item n junk false t2 = Ok (t3, GItem x)).
Proof.
  intros t sz A H C Hs.
  destruct (start_rewind_on t _ _ (conj A (conj H (conj C (conj eq_refl eq_refl))))) as [w1 [E1 [O1 [F1 [D1 [R1 P1]]]]]].
  exists (set_win t w1), (S (Z.to_nat (t_frame t))), (set_bot (set_frame (set_win t w1) 0) true).
  split; [exact E1|]. split; [apply rewind_steps_ok; [exact Hs|exact A|cbn [t_frame set_win]; nia]|]. split; [reflexivity|].
  destruct O1 as [A1 [H1 [C1 [B1 K1]]]]. split; [exact K1|]. split; [exact B1|]. split; [exact F1|].
  intros f x rest n junk TL F ET E G FT.
  assert (O2 : on (set_bot (set_frame (set_win t w1) 0) true) ([] ++ encode1 f x ++ rest) (length (@nil Z))).
  { cbn [app length]. rewrite <- E. exact (conj A1 (conj H1 (conj C1 (conj B1 K1)))). }
  destruct (read_item_tap _ f [] x rest n junk O2 TL F ET G) as [t' [E' _]]; [|exists t'; exact E'].
  inversion FT; subst. assumption.
Qed.
Print Assumptions C28_rewind_partial.
Example C28_met : let t := tape_attach new_drive (encode TAP ex_items) TAP true true in
  t_att t = true /\ win_ok (t_win t) /\ can_flush (t_win t) /\ t_eot t = false.
Proof. pose proof (attach_on new_drive (encode TAP ex_items) TAP true true new_drive_ok) as [A [H [C _]]]. auto. Qed.
(** Once end of tape has been reported the indication survives the rewind: the tape cannot be read a second time. *)
Theorem C28_after_end_of_tape_refuted :
  forall d f l ring hi n junk sz k t1, drive d -> (f = TAP \/ f = E11) -> Forall (good_item f) l -> fits n l ->
  read_items (length l) n junk false (tape_attach d (encode f l) f ring hi) = Ok (t1, map GItem l) ->
  exists t2, read_item n junk false t1 = Ok (t2, GEnd) /\
    forall t3, rewind_steps k sz (fst (tape_start_rewind t2)) = (t3, SBot) -> exists t4, read_item n junk false t3 = Ok (t4, GEnd).
Proof.
  intros d f l ring hi n junk sz k t1 HB TL G FT E1.
  pose proof (attach_on d (encode f l) f ring hi HB) as O0.
  assert (Ec : encode f l = [] ++ encode f l ++ []) by (rewrite app_nil_r; reflexivity).
  rewrite Ec in O0 at 2. destruct (read_items_tap l _ f [] [] n junk O0 TL eq_refl eq_refl G FT) as [t1' [E1' [O1 [AL B1]]]].
  rewrite E1' in E1. injection E1 as ->. cbn [app length plus] in O1. rewrite app_nil_r in O1. destruct AL as [F1 [_ [ET _]]]. cbn in F1, ET.
  rewrite <- F1 in TL. destruct (read_forw_end t1 _ O1 TL ET) as [t2 [E2 [O2 [_ [_ ET2]]]]].
  exists t2. split; [unfold read_item; rewrite E2; reflexivity|]. intros t3 E3.
  assert (ET3 : t_eot t3 = true /\ t_att t3 = true).
  { destruct (start_rewind_on _ _ _ O2) as [w3 [S3 _]]. rewrite S3 in E3. cbn [fst] in E3. assert (A2 : t_att t2 = true) by apply O2. clear S3.
    assert (P : t_eot (set_win t2 w3) = true /\ t_att (set_win t2 w3) = true) by auto. revert E3 P. generalize (set_win t2 w3). clear.
    induction k as [|k IH]; intros t E [P1 P2]; cbn [rewind_steps] in E; [discriminate|].
    unfold tape_rewind_frames in E. rewrite P2 in E. cbn [negb] in E. destruct (t_frame t <? sz).
    - injection E as <-. auto.
    - apply (IH _ E). auto. }
  destruct ET3 as [ET3 A3]. unfold read_item, tape_read_forw. rewrite A3. cbn [negb set_mark set_bot set_parity t_eot]. rewrite ET3. eexists. reflexivity.
Qed.
Print Assumptions C28_after_end_of_tape_refuted.
Example C28_refutation_met : match read_items 4 5 0 false (tape_attach new_drive (encode TAP ex_items) TAP false true) with
  | Ok (_, l) => l = map GItem ex_items | _ => False end.
Proof. vm_compute. reflexivity. Qed.

(** *** C29.  No sequence of calls, with any file in any format, reaches outside the buffer. *)
Theorem C29_buffer_never_left :
  forall d f ty ring hi l, drive d -> do_calls (tape_attach d f ty ring hi) l <> UB.
Proof.
  intros d f ty ring hi l H.
  assert (K : kept (negb ring) f (t_win (tape_attach d f ty ring hi))).
  { sty; [apply (attach_on d f ty ring hi H)|reflexivity|reflexivity]. }
  pose proof (calls_kept _ f l _ K) as X. intros E. rewrite E in X. exact X.
Qed.
Print Assumptions C29_buffer_never_left.
Example C29_met : drive new_drive /\
  match do_calls (tape_attach new_drive [200; 0; 0; 0; 9] TAP true true) [CReadForw; CReadFrame 0; CFinish 300 0; CWriteMark; CReadBack; CRewind] with
  | Ok (_, ss) => ss = [SOk; SOk; SEot; SOk; SMark; SOk]
  | _ => False
  end.
Proof. split; [exact new_drive_ok|]. vm_compute. reflexivity. Qed.

(** *** C48.  However many frames of a record have been read, forward or backward, finishing it leaves the tape behind
    (in front of) the record, and the frames read are the first (last, reversed) ones. *)
Theorem C48_finish_goes_to_the_end_of_the_record :
  forall t f pre r post n fuel junk, (f = TAP \/ f = E11) -> t_att t = true -> win_ok (t_win t) -> can_flush (t_win t) ->
  t_fmt t = f -> good_item f (Rec r) -> (length r <= fuel)%nat -> bytes_on t = pre ++ encode1 f (Rec r) ++ post ->
  (at_byte t = length pre -> t_eot t = false ->
   exists t1 t2 t3, tape_read_forw t = Ok (t1, SOk) /\
     read_frames n t1 = Ok (t2, if Nat.leb n (length r) then SOk else SEob, firstn n r) /\
     tape_finish_rec fuel junk t2 = Ok (t3, SOk) /\ at_byte t3 = (length pre + length (encode1 f (Rec r)))%nat /\ bytes_on t3 = bytes_on t) /\
  (at_byte t = (length pre + length (encode1 f (Rec r)))%nat -> t_bot t = false ->
   exists t1 t2 t3, tape_read_back t = Ok (t1, SOk) /\
     read_frames n t1 = Ok (t2, if Nat.leb n (length r) then SOk else SEob, firstn n (rev r)) /\
     tape_finish_rec fuel junk t2 = Ok (t3, SOk) /\ at_byte t3 = length pre /\ bytes_on t3 = bytes_on t).
Proof.
  intros t f pre r post n fuel junk TL A H C F G Hf E. split.
  - intros K ET. destruct (read_part_tap t f pre r post n fuel junk (conj A (conj H (conj C (conj E K)))) TL F ET G ltac:(lia))
      as [t1 [t2 [t3 [E1 [E2 [E3 [[_ [_ [_ [B K3]]]] _]]]]]]].
    exists t1, t2, t3. rewrite E. auto 10.
  - intros K B. destruct (read_part_back t f pre r post n fuel junk (conj A (conj H (conj C (conj E K)))) TL F B G ltac:(lia))
      as [t1 [t2 [t3 [E1 [E2 [E3 [[_ [_ [_ [B3 K3]]]] _]]]]]]].
    exists t1, t2, t3. rewrite E. auto 10.
Qed.
Print Assumptions C48_finish_goes_to_the_end_of_the_record.
Example C48_met : good_item TAP (Rec [1; 2; 3]) /\ encode TAP ex_items = [] ++ encode1 TAP (Rec [1; 2; 3]) ++ encode TAP [Mark; Rec [255]; Mark].
Proof. split; [split; [discriminate|split; [repeat constructor; lia|reflexivity]]|reflexivity]. Qed.

(** *** C49.  Erasing a gap should leave no tape mark.  It leaves one, on every tape with a ring. *)
Theorem C49_erase_gap_refuted :
  forall d c f hi n junk sz, drive d -> t_parity d = false -> (f = TAP \/ f = E11) -> 0 < sz ->
  exists t1 t1' t2 k t3 t4,
    tape_erase_gap (tape_attach d c f true hi) = Ok (t1, SOk) /\ tape_finish_rec 0 0 t1 = Ok (t1', SOk) /\
    tape_start_rewind t1' = (t2, SOk) /\ rewind_steps k sz t2 = (t3, SBot) /\
    read_item n junk false t3 = Ok (t4, GItem Mark).
Proof.
  intros d c f hi n junk sz HB PA TL Hs.
  destruct (C23_records_read_back d c f hi [Mark] n junk sz HB PA TL) as [t1 [t2 [k [t3 [t4 [E1 [E2 [_ [E3 [E4 _]]]]]]]]]];
    [constructor; [exact I|constructor]|constructor; [exact I|constructor]|exact Hs|].
  change (tape_erase_gap (tape_attach d c f true hi)) with (tape_write_mark (tape_attach d c f true hi)).
  cbn [write_items] in E1. unfold write_item in E1. destruct (tape_write_mark (tape_attach d c f true hi)) as [[ta sa]| |]; cbn [bind] in E1; try discriminate.
  destruct sa; cbn [bind write_frames] in E1; try discriminate.
  destruct (tape_finish_rec 0 0 ta) as [[tb sb]| |] eqn:Ef; cbn [bind] in E1; try discriminate.
  destruct sb; try discriminate. injection E1 as ->.
  cbn [read_items length map] in E4. destruct (read_item n junk false t3) as [[tc g]| |] eqn:Er; cbn [bind] in E4; try discriminate.
  injection E4 as _ ->.
  exists ta, t1, t2, k, t3, tc. auto 10.
Qed.
Print Assumptions C49_erase_gap_refuted.
Example C49_met : drive new_drive /\ t_parity new_drive = false. Proof. split; [exact new_drive_ok|reflexivity]. Qed.
