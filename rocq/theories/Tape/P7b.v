(** The P7B format. *)
From Verif Require Import Base.Bits Tape.Model Tape.Spec Tape.Window Tape.Records Tape.Tap.

Lemma char_facts x : 0 <= x < 128 ->
  irg x = false /\ no_irg x = x /\ irg (Z.lor x 128) = true /\ no_irg (Z.lor x 128) = x /\ (Z.lor x 128 = p7b_mark -> x = 15) /\
  (x =? p7b_mark) = false.
Proof.
  intros H.
  pose proof (sweep 128 (fun x => negb (irg x) && (no_irg x =? x) && irg (Z.lor x 128) && (no_irg (Z.lor x 128) =? x) &&
     (negb (Z.lor x 128 =? p7b_mark) || (x =? 15)) && negb (x =? p7b_mark)) ltac:(vm_compute; reflexivity) x H) as S.
  cbn beta in S. repeat rewrite andb_true_iff in S. rewrite orb_true_iff, !negb_true_iff in S.
  destruct S as [[[[[S1 S2] S3] S4] S5] S6]. apply Z.eqb_eq in S2. apply Z.eqb_eq in S4.
  repeat split; auto. intros E. destruct S5 as [S5|S5]; [apply Z.eqb_neq in S5; congruence|apply Z.eqb_eq in S5; exact S5].
Qed.

(** One frame forward. *)
Lemma p7b_frame t c k b d : on t c k -> nth_error c k = Some b -> t_fmt t = P7B -> t_func t = FRead -> t_mark t = false ->
  t_bot t = false -> t_eot t = false -> t_lrecl t <> 2 ->
  if (t_lrecl t =? 1) && irg b then
    exists w' x, tape_read_frame t d = Ok (set_lrecl (set_win t w') 2, SEob, x) /\ on (set_lrecl (set_win t w') 2) c k /\
      w_ro w' = w_ro (t_win t)
  else
    exists w' fr, tape_read_frame t d = Ok (set_frame (set_lrecl (set_win t w') 1) fr, SOk, no_irg b) /\
      on (set_frame (set_lrecl (set_win t w') 1) fr) c (S k) /\ w_ro w' = w_ro (t_win t).
Proof.
  intros O1 N F FU MK BT ET L2. assert (A : t_att t = true) by apply O1.
  assert (KL : (k < length c)%nat) by (apply nth_error_Some; congruence).
  destruct (read_byte_on t c k d O1 KL) as [w1 [b' [N' [E1 [O2 R1]]]]]. rewrite N in N'. injection N' as <-.
  unfold tape_read_frame. rewrite A, MK, F, FU. cbn [negb]. replace (t_lrecl t =? 2) with false by lia. rewrite E1. cbn [bind].
  change (t_lrecl (set_win t w1)) with (t_lrecl t).
  destruct ((t_lrecl t =? 1) && irg b).
  - destruct (readbk_byte_on (set_win t w1) c k b O2 BT ET) as [w2 [x [_ [E2 [O3 R2]]]]]. rewrite E2. cbn [bind].
    exists w2, x. split; [reflexivity|]. split; [exact O3|]. cbn in R2. congruence.
  - exists w1. eexists. split; [reflexivity|]. split; [exact O2|exact R1].
Qed.

Lemma nth_mid (pre : list Z) b post : nth_error (pre ++ b :: post) (length pre) = Some b.
Proof. rewrite nth_error_app2 by lia. rewrite Nat.sub_diag. reflexivity. Qed.

Lemma p7b_frames r : forall t pre b post n, let c := pre ++ r ++ b :: post in
  on t c (length pre) -> t_fmt t = P7B -> t_func t = FRead -> t_mark t = false -> t_bot t = false -> t_eot t = false ->
  t_lrecl t = 1 -> Forall (fun x => 0 <= x < 128) r -> irg b = true -> (length r < n)%nat ->
  exists w' fr, let t' := set_frame (set_lrecl (set_win t w') 2) fr in
    read_frames n t = Ok (t', SEob, r) /\ on t' c (length pre + length r) /\ w_ro w' = w_ro (t_win t).
Proof.
  induction r as [|x r IH]; intros t pre b post n c O1 F FU MK BT ET LR G Hb Hn.
  - destruct n as [|n]; [lia|]. cbn [read_frames].
    pose proof (p7b_frame t c (length pre) b 0 O1 (nth_mid _ _ _) F FU MK BT ET ltac:(lia)) as X.
    rewrite LR, Hb in X. cbn [Z.eqb andb Pos.eqb] in X. destruct X as [w' [y [E [O2 R]]]].
    exists w', (t_frame t). rewrite E. cbn [bind length]. rewrite Nat.add_0_r. split; [reflexivity|]. split; [exact O2|exact R].
  - destruct n as [|n]; [cbn in Hn; lia|]. cbn [read_frames length] in *. inversion G as [|? ? G1 G2]; subst.
    destruct (char_facts x G1) as [I1 [I2 _]].
    pose proof (p7b_frame t c (length pre) x 0 O1 (nth_mid _ _ _) F FU MK BT ET ltac:(lia)) as X.
    rewrite I1, andb_false_r, I2 in X. destruct X as [w1 [fr1 [E1 [O2 R1]]]].
    assert (Ec : c = (pre ++ [x]) ++ r ++ b :: post) by (unfold c; rewrite <- app_assoc; reflexivity).
    rewrite Ec in O2. replace (S (length pre)) with (length (pre ++ [x])) in O2 by (rewrite app_length; cbn; lia).
    destruct (IH _ _ _ _ n O2 F FU MK BT ET eq_refl G2 Hb ltac:(lia)) as [w2 [fr2 [E2 [O3 R2]]]]. cbn zeta in *.
    exists w2, fr2. rewrite E1. cbn [bind]. rewrite E2. cbn [bind]. split; [reflexivity|].
    rewrite <- Ec in O3. rewrite app_length in O3. cbn [length] in O3.
    replace (length pre + S (length r))%nat with (length pre + 1 + length r)%nat by lia. split; [exact O3|]. cbn in R2. congruence.
Qed.

Lemma peek_byte_on t c k d : on t c k ->
  exists w', on (set_win t w') c k /\ w_ro w' = w_ro (t_win t) /\
    tape_peek_byte t d = Ok (set_win t w', match nth_error c k with Some _ => SOk | None => SEot end,
                             match nth_error c k with Some b => b | None => d end).
Proof.
  intros [A [H [C [E K]]]]. destruct (peek_byte_ok t d A H C) as [w' [O' [C' [R' [E' [K' [D' X]]]]]]].
  rewrite E, K in X. exists w'. split; [|split; [exact R'|destruct (nth_error c k); exact X]].
  refine (conj A (conj O' (conj C' (conj _ (eq_trans K' K))))). rewrite <- E. exact E'.
Qed.

Lemma p7b_forw t c k b : on t c k -> nth_error c k = Some b -> t_fmt t = P7B -> t_eot t = false ->
  if b =? p7b_mark then
    exists t', tape_read_forw t = Ok (t', SMark) /\ on t' c (S k) /\ alike t t' /\ t_bot t' = false /\ t_mark t' = true /\
      t_parity t' = false
  else
    exists t', tape_read_forw t = Ok (t', SOk) /\ on t' c k /\ alike t t' /\ t_bot t' = false /\ t_func t' = FRead /\
      t_mark t' = false /\ t_parity t' = false /\ t_lrecl t' = 0.
Proof.
  intros O1 N F ET. assert (A : t_att t = true) by apply O1.
  assert (KL : (k < length c)%nat) by (apply nth_error_Some; congruence).
  set (t0 := set_srec (set_func (set_mark (set_bot (set_parity t false) false) false) FRead) (Z.of_nat k)).
  assert (O2 : on t0 c k) by exact O1.
  destruct (peek_byte_on t0 c k 0 O2) as [w1 [O3 [R1 E1]]]. rewrite N in E1.
  assert (EF : tape_read_forw t =
    let* x := tape_peek_byte t0 0 in
    let '(t1, s, b) := x in
    let t2 := set_lrecl t1 2 in
    match s with
    | SOk =>
      if b =? p7b_mark then
        let* y := tape_read_byte t2 b in
        let '(t3, s3, _) := y in
        match s3 with
        | SErr => Ok (t3, SErr)
        | _ =>
          let t4 := set_mark (set_frame t3 (t_frame t3 + 1200)) true in
          Ok (t4, match s3 with SEot => SEot | _ => SMark end)
        end
      else Ok (set_lrecl t2 0, SOk)
    | _ => Ok (t2, s)
    end).
  { unfold tape_read_forw. rewrite A. cbn [negb]. cbn zeta.
    change (t_eot (set_mark (set_bot (set_parity t false) false) false)) with (t_eot t). rewrite ET.
    change (cursor (t_win (set_func (set_mark (set_bot (set_parity t false) false) false) FRead))) with (at_byte t).
    replace (at_byte t) with k by (symmetry; apply O1). fold t0.
    change (t_fmt (set_func _ FRead)) with (t_fmt t). rewrite F. reflexivity. }
  rewrite EF, E1. cbn [bind]. destruct (b =? p7b_mark).
  - assert (O4 : on (set_lrecl (set_win t0 w1) 2) c k) by exact O3.
    destruct (read_byte_on _ c k b O4 KL) as [w2 [b2 [_ [E2 [O5 R2]]]]]. rewrite E2. cbn [bind].
    eexists. split; [reflexivity|]. split; [exact O5|]. split; [unfold alike; cbn; cbn in R1, R2; intuition congruence|]. cbn. auto.
  - eexists. split; [reflexivity|]. split; [exact O3|]. split; [unfold alike; cbn; cbn in R1; intuition congruence|]. cbn. auto.
Qed.

(** What follows a record: the start of another block. *)
Definition block_start (l : list Z) : Prop := match l with b :: _ => irg b = true | [] => False end.

Lemma read_item_p7b t pre x post n junk : let c := pre ++ encode1 P7B x ++ post in
  on t c (length pre) -> t_fmt t = P7B -> t_eot t = false -> good_item P7B x ->
  match x with Rec d => (length d < n)%nat /\ block_start post | Mark => True end ->
  exists t', read_item n junk false t = Ok (t', GItem x) /\ on t' c (length pre + length (encode1 P7B x)) /\ alike t t' /\ t_bot t' = false.
Proof.
  intros c O1 F ET G Hn. unfold read_item. destruct x as [d|].
  - destruct d as [|y r]; [destruct G; congruence|]. destruct G as [_ [G HD]]. cbn [hd] in HD. inversion G as [|? ? G1 G2]; subst.
    destruct Hn as [Hn BS']. destruct post as [|b post]; [destruct BS'|]. cbn [block_start] in BS'.
    destruct (char_facts y G1) as [_ [_ [I1 [I2 [I3 _]]]]].
    cbn [encode1] in c. 
    pose proof (p7b_forw t c (length pre) (Z.lor y 128) O1 (nth_mid _ _ _) F ET) as X.
    destruct (Z.eqb_spec (Z.lor y 128) p7b_mark) as [Em|Em]; [elim HD; apply I3; exact Em|].
    destruct X as [t1 [E1 [O2 [AL [B1 [FU [MK [PA LR]]]]]]]]. rewrite E1. cbn [bind].
    pose proof AL as [F1 [_ [ET1 _]]]. rewrite F in F1. rewrite ET in ET1.
    destruct n as [|n]; [lia|]. cbn [read_frames length] in *.
    pose proof (p7b_frame t1 c (length pre) (Z.lor y 128) 0 O2 (nth_mid _ _ _) F1 FU MK B1 ET1 ltac:(lia)) as X.
    rewrite LR in X. cbn [Z.eqb andb] in X. destruct X as [w2 [fr2 [E2 [O3 R2]]]]. rewrite E2. cbn [bind].
    set (t2 := set_frame (set_lrecl (set_win t1 w2) 1) fr2) in *.
    assert (Ec : c = (pre ++ [Z.lor y 128]) ++ r ++ b :: post) by (unfold c; rewrite <- app_assoc; reflexivity).
    rewrite Ec in O3. replace (S (length pre)) with (length (pre ++ [Z.lor y 128])) in O3 by (rewrite app_length; cbn; lia).
    destruct (p7b_frames r t2 _ _ _ n O3 F1 FU MK B1 ET1 eq_refl G2 BS' ltac:(lia)) as [w3 [fr3 [E3 [O4 R3]]]]. cbn zeta in *.
    rewrite E3. cbn [bind]. set (t3 := set_frame (set_lrecl (set_win t2 w3) 2) fr3) in *.
    assert (EF : tape_finish_rec (S n) junk t3 = Ok (set_func t3 FNone, SOk)).
    { unfold tape_finish_rec. assert (A : t_att t3 = true) by apply O4. rewrite A. cbn [negb].
      change (t_fmt t3) with (t_fmt t1). rewrite F1. change (t_mark t3) with (t_mark t1). rewrite MK.
      change (t_func t3) with (t_func t1). rewrite FU. cbn [skip_p7b]. change (t_lrecl t3) with 2. cbn [Z.eqb Pos.eqb bind].
      unfold finish_end. change (t_parity t3) with (t_parity t1). rewrite PA. reflexivity. }
    exists (set_func t3 FNone).
    match goal with |- context [tape_finish_rec ?a ?b ?c] => change (tape_finish_rec a b c) with (tape_finish_rec (S n) junk t3) end.
    rewrite EF. cbn [bind]. rewrite I2. split; [reflexivity|].
    rewrite <- Ec in O4. rewrite app_length in O4. cbn [encode1 length] in *.
    replace (length pre + S (length r))%nat with (length pre + 1 + length r)%nat by lia.
    split; [exact O4|]. split; [|exact B1]. eapply alike_trans; [exact AL|]. unfold alike. cbn. cbn in R3. intuition congruence.
  - cbn [encode1] in c.
    pose proof (p7b_forw t c (length pre) 143 O1 (nth_mid _ _ _) F ET) as X. change (143 =? p7b_mark) with true in X.
    destruct X as [t1 [E1 [O2 [AL [B1 [MK PA]]]]]]. rewrite E1. cbn [bind].
    pose proof AL as [F1 _]. rewrite F in F1.
    eexists. unfold tape_finish_rec. assert (A : t_att t1 = true) by apply O2. rewrite A, F1, MK. cbn [negb].
    unfold finish_end. cbn [t_parity set_mark]. rewrite PA. cbn [bind]. split; [reflexivity|].
    cbn [encode1 length]. replace (length pre + 1)%nat with (S (length pre)) by lia.
    split; [exact O2|]. split; [exact AL|exact B1].
Qed.

Lemma encode_start l : Forall (good_item P7B) l -> l <> [] -> block_start (encode P7B l).
Proof.
  destruct l as [|[d|] l]; intros G H; [congruence| |reflexivity]. inversion G as [|? ? G1 _]; subst.
  destruct d as [|y r]; [destruct G1; congruence|]. destruct G1 as [_ [G1 _]]. inversion G1 as [|? ? G2 _]; subst. cbn.
  apply (char_facts y G2).
Qed.

(** The list is followed by another block, or ends with a tape mark. *)
Fixpoint closed (l : list item) (post : list Z) : Prop :=
  match l with
  | [] => True
  | [Rec _] => block_start post
  | [Mark] => True
  | _ :: r => closed r post
  end.

Lemma block_start_app a b : block_start a -> block_start (a ++ b).
Proof. destruct a; cbn; tauto. Qed.

Lemma read_items_p7b l : forall t pre post n junk, let c := pre ++ encode P7B l ++ post in
  on t c (length pre) -> t_fmt t = P7B -> t_eot t = false -> Forall (good_item P7B) l -> fits n l -> closed l post ->
  exists t', read_items (length l) n junk false t = Ok (t', map GItem l) /\ on t' c (length pre + length (encode P7B l)) /\ alike t t' /\
    (l <> [] -> t_bot t' = false).
Proof.
  induction l as [|x l IH]; intros t pre post n junk c O1 F ET G Hn CL.
  - exists t. cbn [read_items map encode flat_map length]. rewrite Nat.add_0_r. split; [reflexivity|]. split; [exact O1|].
    split; [unfold alike; auto|congruence].
  - inversion G as [|? ? G1 G2]; subst. inversion Hn as [|? ? N1 N2]; subst.
    assert (Ec : c = pre ++ encode1 P7B x ++ (encode P7B l ++ post)).
    { unfold c. unfold encode. cbn [flat_map]. rewrite <- !app_assoc. reflexivity. }
    rewrite Ec in O1.
    assert (N3 : match x with Rec d => (length d < n)%nat /\ block_start (encode P7B l ++ post) | Mark => True end).
    { destruct x as [d|]; [|exact I]. split; [exact N1|]. destruct l as [|x' l']; [exact CL|].
      apply block_start_app, encode_start; [exact G2|discriminate]. }
    destruct (read_item_p7b t pre x (encode P7B l ++ post) n junk O1 F ET G1 N3) as [t1 [E1 [O2 [AL B1]]]].
    assert (Ec2 : c = (pre ++ encode1 P7B x) ++ encode P7B l ++ post) by (rewrite Ec, <- !app_assoc; reflexivity).
    rewrite <- Ec, Ec2, <- app_length in O2.
    pose proof AL as [F1 [_ [ET1 _]]].
    assert (CL2 : closed l post) by (destruct l as [|x' l']; [exact I|destruct x; exact CL]).
    destruct (IH t1 (pre ++ encode1 P7B x) post n junk O2 ltac:(congruence) ltac:(congruence) G2 N2 CL2) as [t2 [E2 [O3 [AL2 B2]]]].
    exists t2. cbn [read_items length map]. rewrite E1. cbn [bind]. rewrite E2. cbn [bind]. split; [reflexivity|].
    rewrite <- Ec2 in O3. rewrite app_length in O3. unfold encode at 1. cbn [flat_map]. rewrite app_length.
    replace (length pre + (length (encode1 P7B x) + length (flat_map (encode1 P7B) l)))%nat
      with (length pre + length (encode1 P7B x) + length (encode P7B l))%nat by (unfold encode; lia).
    split; [exact O3|]. split; [eapply alike_trans; eassumption|]. intros _. destruct l; [|apply B2; discriminate].
    cbn in E2. injection E2 as <-. exact B1.
Qed.

Lemma finish_mark_p7b t n junk : t_att t = true -> t_mark t = true -> t_fmt t = P7B -> t_parity t = false ->
  tape_finish_rec n junk t = Ok (set_func (set_mark t false) FNone, SOk).
Proof. intros A M F P. unfold tape_finish_rec. rewrite A, M, F. unfold finish_end. cbn [t_parity set_mark]. rewrite P. reflexivity. Qed.

(** *** Backwards *)
Lemma p7b_frame_back t c k b d : on t c (S k) -> nth_error c k = Some b -> t_fmt t = P7B -> t_func t = FRdback -> t_mark t = false ->
  t_bot t = false -> t_eot t = false -> t_lrecl t <> 2 ->
  exists w' fr, let t' := set_frame (set_lrecl (set_win t w') (if irg b then 2 else 1)) fr in
    tape_read_frame t d = Ok (t', SOk, no_irg b) /\ on t' c k /\ w_ro w' = w_ro (t_win t).
Proof.
  intros O1 N F FU MK BT ET L2. assert (A : t_att t = true) by apply O1.
  destruct (readbk_byte_on t c k d O1 BT ET) as [w1 [b' [N' [E1 [O2 R1]]]]]. rewrite N in N'. injection N' as <-.
  unfold tape_read_frame. rewrite A, MK, F, FU. cbn [negb]. replace (t_lrecl t =? 2) with false by lia. rewrite E1. cbn [bind].
  exists w1. eexists. cbn zeta. split; [reflexivity|]. split; [exact O2|exact R1].
Qed.

Lemma p7b_frames_back r : forall t pre y post n, let c := pre ++ (Z.lor y 128 :: r) ++ post in
  on t c (length pre + S (length r)) -> t_fmt t = P7B -> t_func t = FRdback -> t_mark t = false -> t_bot t = false -> t_eot t = false ->
  t_lrecl t <> 2 -> Forall (fun x => 0 <= x < 128) r -> 0 <= y < 128 -> (S (length r) < n)%nat ->
  exists w' fr, let t' := set_frame (set_lrecl (set_win t w') 2) fr in
    read_frames n t = Ok (t', SEob, rev (y :: r)) /\ on t' c (length pre) /\ w_ro w' = w_ro (t_win t).
Proof.
  induction r as [|x r IH] using rev_ind; intros t pre y post n c O1 F FU MK BT ET LR G Hy Hn.
  - destruct n as [|[|n]]; [cbn in Hn; lia..|]. cbn [read_frames]. cbn [length app] in *.
    replace (length pre + 1)%nat with (S (length pre)) in O1 by lia.
    destruct (char_facts y Hy) as [_ [_ [I1 [I2 _]]]].
    destruct (p7b_frame_back t c (length pre) (Z.lor y 128) 0 O1 (nth_mid _ _ _) F FU MK BT ET LR) as [w1 [fr1 [E1 [O2 R1]]]].
    cbn zeta in *. rewrite I1 in *. rewrite E1. cbn [bind].
    exists w1, fr1. unfold tape_read_frame at 1. assert (A : t_att t = true) by apply O1.
    cbn [t_att t_mark t_fmt t_func t_lrecl set_frame set_lrecl set_win]. rewrite A, MK, F, FU. cbn [negb Z.eqb Pos.eqb bind].
    rewrite I2. split; [reflexivity|]. split; [exact O2|exact R1].
  - apply Forall_app in G as [G1 G2]. inversion G2 as [|? ? G3 _]; subst. rewrite app_length in *. cbn [length] in *.
    destruct n as [|n]; [lia|]. cbn [read_frames].
    assert (Ec : c = (pre ++ Z.lor y 128 :: r) ++ x :: post) by (unfold c; cbn [app]; rewrite <- !app_assoc; reflexivity).
    replace (length pre + S (length r + 1))%nat with (S (length (pre ++ Z.lor y 128 :: r))) in O1 by (rewrite app_length; cbn [length]; lia).
    destruct (char_facts x G3) as [I1 [I2 _]].
    assert (N : nth_error c (length (pre ++ Z.lor y 128 :: r)) = Some x) by (rewrite Ec; apply nth_mid).
    destruct (p7b_frame_back t c _ x 0 O1 N F FU MK BT ET LR) as [w1 [fr1 [E1 [O2 R1]]]]. cbn zeta in *. rewrite I1 in *.
    rewrite E1. cbn [bind].
    assert (Ec2 : c = pre ++ (Z.lor y 128 :: r) ++ (x :: post)) by (rewrite Ec, <- app_assoc; reflexivity).
    rewrite Ec2, app_length in O2. cbn [length] in O2.
    destruct (IH _ _ _ _ n O2 F FU MK BT ET ltac:(cbn; discriminate) G1 Hy ltac:(lia)) as [w2 [fr2 [E2 [O3 R2]]]]. cbn zeta in *.
    exists w2, fr2. rewrite E2. cbn [bind]. rewrite I2. split.
    { cbn [rev app]. rewrite rev_app_distr. reflexivity. }
    rewrite <- Ec2 in O3. split; [exact O3|]. cbn in R2. congruence.
Qed.

Lemma last_char y r : Forall (fun x => 0 <= x < 128) (y :: r) -> y <> 15 ->
  exists q b, Z.lor y 128 :: r = q ++ [b] /\ (b =? p7b_mark) = false.
Proof.
  intros G Hy. destruct r as [|x r _] using rev_ind.
  - exists [], (Z.lor y 128). split; [reflexivity|]. inversion G as [|? ? G1 _]; subst.
    apply Z.eqb_neq. intros E. apply Hy. apply (char_facts y G1). exact E.
  - exists (Z.lor y 128 :: r), x. split; [reflexivity|]. inversion G as [|? ? _ G1]; subst.
    apply Forall_app in G1 as [_ G1]. inversion G1; subst. apply char_facts. assumption.
Qed.

Lemma read_item_p7b_back t pre x post n junk : let c := pre ++ encode1 P7B x ++ post in
  on t c (length pre + length (encode1 P7B x)) -> t_fmt t = P7B -> t_bot t = false -> good_item P7B x ->
  match x with Rec d => (length d < n)%nat | Mark => True end ->
  exists t', read_item n junk true t = Ok (t', GItem (mirror x)) /\ on t' c (length pre) /\ alike (set_eot t false) t' /\ t_bot t' = false.
Proof.
  intros c O1 F BT G Hn. unfold read_item. assert (A : t_att t = true) by apply O1.
  set (k := (length pre + length (encode1 P7B x))%nat) in *.
  set (t0 := set_srec (set_func (set_parity (set_mark (set_eot t false) false) false) FRdback) (Z.of_nat k)).
  assert (O2 : on t0 c k) by exact O1.
  assert (EB : tape_read_back t =
    let* x := tape_readbk_byte t0 0 in
    let '(t1, s, b) := x in
    match s with
    | SOk =>
      let t2 := set_lrecl t1 0 in
      if b =? p7b_mark then
        Ok (set_mark (set_lrecl (set_frame (set_srec t2 (Z.of_nat (cursor (t_win t2)))) (t_frame t2 - 1200)) 2) true, SMark)
      else
        let* y := tape_read_byte t2 b in
        let '(t3, _, _) := y in Ok (t3, SOk)
    | _ => Ok (t1, s)
    end).
  { unfold tape_read_back. rewrite A. cbn [negb]. cbn zeta.
    change (t_bot (set_mark (set_eot t false) false)) with (t_bot t). rewrite BT.
    change (cursor (t_win (set_func (set_parity (set_mark (set_eot t false) false) false) FRdback))) with (at_byte t).
    replace (at_byte t) with k by (symmetry; apply O1). fold t0.
    change (t_fmt (set_func _ FRdback)) with (t_fmt t). rewrite F. reflexivity. }
  destruct x as [d|].
  - destruct d as [|y r]; [destruct G; congruence|]. destruct G as [_ [G HD]]. cbn [hd] in HD.
    destruct (last_char y r G HD) as [q [b [Eq Hb]]]. inversion G as [|? ? G1 G2]; subst.
    cbn [encode1] in *.
    assert (Ec : c = (pre ++ q) ++ b :: post) by (unfold c; rewrite Eq, <- !app_assoc; reflexivity).
    assert (Hk : k = S (length (pre ++ q))).
    { unfold k. rewrite Eq, !app_length. cbn [length]. lia. }
    rewrite Hk in O2. destruct (readbk_byte_on t0 c _ 0 O2 BT eq_refl) as [w1 [b1 [N1 [E1 [O3 R1]]]]].
    rewrite Ec, nth_mid in N1. injection N1 as <-.
    assert (O4 : on (set_lrecl (set_win t0 w1) 0) c (length (pre ++ q))) by exact O3.
    destruct (read_byte_on _ c _ b O4) as [w2 [b2 [_ [E2 [O5 R2]]]]]; [rewrite Ec, (app_length (pre ++ q)); cbn [length]; lia|].
    rewrite EB, E1. cbn [bind]. rewrite Hb. cbn zeta. rewrite E2. cbn [bind].
    set (t2 := set_win (set_lrecl (set_win t0 w1) 0) w2) in *.
    rewrite <- Hk in O5. assert (O6 : on t2 c (length pre + S (length r))) by exact O5.
    destruct (p7b_frames_back r t2 pre y post n O6 F eq_refl eq_refl BT eq_refl ltac:(cbn; discriminate) G2 G1 Hn) as [w3 [fr3 [E3 [O7 R3]]]].
    cbn zeta in *. rewrite E3. cbn [bind].
    set (t3 := set_frame (set_lrecl (set_win t2 w3) 2) fr3) in *.
    assert (EF : tape_finish_rec n junk t3 = Ok (set_func t3 FNone, SOk)).
    { unfold tape_finish_rec. change (t_att t3) with (t_att t). rewrite A. cbn [negb].
      change (t_fmt t3) with (t_fmt t). rewrite F. change (t_mark t3) with false.
      change (t_func t3) with FRdback. destruct n; cbn [skip_p7b]; change (t_lrecl t3) with 2; reflexivity. }
    rewrite EF. cbn [bind mirror]. eexists. split; [reflexivity|]. split; [exact O7|]. split; [|exact BT].
    unfold alike. cbn. cbn in R1, R2, R3. intuition congruence.
  - cbn [encode1] in *. assert (Hk : k = S (length pre)) by (unfold k; cbn [length]; lia). rewrite Hk in O2.
    destruct (readbk_byte_on t0 c _ 0 O2 BT eq_refl) as [w1 [b1 [N1 [E1 [O3 R1]]]]].
    unfold c in N1. cbn [app] in N1. rewrite nth_mid in N1. injection N1 as <-.
    rewrite EB, E1. cbn [bind]. change (143 =? p7b_mark) with true. cbn iota zeta. cbn [bind].
    rewrite finish_mark_p7b; [|exact A|reflexivity|exact F|reflexivity].
    cbn [bind mirror]. eexists. split; [reflexivity|]. split; [exact O3|]. split; [|exact BT].
    unfold alike. cbn. cbn in R1. intuition congruence.
Qed.

Lemma read_items_p7b_back l : forall t pre post n junk, let c := pre ++ encode P7B l ++ post in
  on t c (length pre + length (encode P7B l)) -> t_fmt t = P7B -> t_bot t = false -> Forall (good_item P7B) l -> fits n l ->
  exists t', read_items (length l) n junk true t = Ok (t', map GItem (rev (map mirror l))) /\ on t' c (length pre) /\
    t_fmt t' = P7B /\ t_bot t' = false.
Proof.
  induction l as [|x l IH] using rev_ind; intros t pre post n junk c O1 F BT G Hn.
  - exists t. cbn [read_items map encode flat_map length rev]. cbn in O1. rewrite Nat.add_0_r in O1. auto.
  - apply Forall_app in G as [G1 G2]. inversion G2 as [|? ? G3 _]; subst. apply Forall_app in Hn as [N1 N2]. inversion N2 as [|? ? N3 _]; subst.
    assert (Ee : encode P7B (l ++ [x]) = encode P7B l ++ encode1 P7B x).
    { unfold encode. rewrite flat_map_app. cbn [flat_map]. rewrite app_nil_r. reflexivity. }
    assert (Ec : c = (pre ++ encode P7B l) ++ encode1 P7B x ++ post) by (unfold c; rewrite Ee, <- !app_assoc; reflexivity).
    fold c in O1. rewrite Ee, app_length, Nat.add_assoc, <- app_length in O1. rewrite Ec in O1.
    destruct (read_item_p7b_back t _ x post n junk O1 F BT G3 N3) as [t1 [E1 [O2 [AL B1]]]].
    assert (Ec2 : c = pre ++ encode P7B l ++ (encode1 P7B x ++ post)) by (rewrite Ec, <- !app_assoc; reflexivity).
    rewrite <- Ec, Ec2, app_length in O2. pose proof AL as [F1 _]. cbn in F1. rewrite F in F1.
    destruct (IH t1 pre (encode1 P7B x ++ post) n junk O2 F1 B1 G1 N1) as [t2 [E2 [O3 [F2 B2]]]].
    exists t2. rewrite app_length. cbn [length]. rewrite Nat.add_comm. cbn [plus read_items]. rewrite E1. cbn [bind]. rewrite E2. cbn [bind].
    rewrite map_app, rev_app_distr. cbn [map rev app]. split; [reflexivity|]. rewrite <- Ec2 in O3. auto.
Qed.

(** *** Writing *)
Lemma write_frames_p7b d : forall t c k, won t c k -> t_fmt t = P7B -> 0 < t_lrecl t -> t_lrecl t + Z.of_nat (length d) < 4294967296 ->
  exists w' fr, let t' := set_frame (set_lrecl (set_win t w') (t_lrecl t + Z.of_nat (length d))) fr in
    write_frames t d = Ok (t', SOk) /\ won t' (overwrite c k d) (k + length d).
Proof.
  induction d as [|b d IH]; intros t c k W F L0 L1.
  - exists (t_win t), (t_frame t). cbn [write_frames length]. rewrite Nat.add_0_r, Z.add_0_r.
    rewrite overwrite_nil by (apply (on_le t), won_on; exact W). destruct t; auto.
  - pose proof (on_le _ _ _ (won_on _ _ _ W)) as KL. cbn [length] in L1.
    set (t0 := set_frame (set_lrecl t (t_lrecl t + 1)) (t_frame t + (if t_hi t then 1 else 2))).
    destruct (write_byte_on t0 c k b W) as [w1 [E1 [W1 D1]]].
    destruct (IH (set_win t0 w1) _ _ W1 F ltac:(cbn; lia) ltac:(cbn; lia)) as [w2 [fr [E2 W2]]]. cbn zeta in *.
    exists w2, fr. cbn [write_frames]. unfold tape_write_frame at 1. assert (A : t_att t = true) by apply W. rewrite A. cbn [negb].
    unfold u32. rewrite Z.mod_small by lia. fold t0. rewrite F. replace (t_lrecl t =? 0) with false by lia.
    rewrite E1. cbn [bind length].
    change (t_lrecl (set_win t0 w1)) with (t_lrecl t + 1) in *.
    replace (t_lrecl t + Z.of_nat (S (length d))) with (t_lrecl t + 1 + Z.of_nat (length d)) by lia.
    split; [exact E2|].
    rewrite overwrite_cons in W2 by exact KL. replace (k + S (length d))%nat with (S k + length d)%nat by lia. exact W2.
Qed.
Lemma write_item_p7b t c k x : won t c k -> t_fmt t = P7B -> t_ring t = true -> t_parity t = false -> good_item P7B x ->
  match x with Rec d => Z.of_nat (length d) < 4294967296 | Mark => True end ->
  exists t', write_item t x = Ok (t', SOk) /\ won t' (overwrite c k (encode1 P7B x)) (k + length (encode1 P7B x)) /\ same_set t t'.
Proof.
  intros W F RG PA G GL. pose proof (on_le _ _ _ (won_on _ _ _ W)) as KL.
  assert (A : t_att t = true) by apply W. assert (CU : cursor (t_win t) = k) by apply W.
  unfold write_item. destruct x as [d|].
  - destruct d as [|b d]; [destruct G; congruence|]. cbn [length] in GL.
    set (t1 := set_func (set_orecl (set_lrecl (set_srec (set_parity (set_mark (set_bot t false) false) false) (Z.of_nat k)) 0) 0) FWrite).
    assert (ES : tape_write_start t = Ok (t1, SOk)).
    { unfold tape_write_start. rewrite A, RG. cbn [negb]. cbn zeta. rewrite CU.
      cbn [t_fmt set_srec set_parity set_mark set_bot]. rewrite F. reflexivity. }
    rewrite ES. cbn [bind write_frames]. unfold tape_write_frame at 1.
    change (t_att t1) with (t_att t). rewrite A. cbn [negb]. change (t_fmt t1) with (t_fmt t). rewrite F.
    change (t_lrecl t1) with 0. cbn [Z.eqb]. change (u32 (0 + 1)) with 1.
    set (t2 := set_frame (set_lrecl t1 1) (t_frame t1 + (if t_hi t1 then 1 else 2))).
    destruct (write_byte_on t2 c k (Z.lor b 128) W) as [w3 [E3 [W3 D3]]]. rewrite E3. cbn [bind].
    destruct (write_frames_p7b d (set_win t2 w3) _ _ W3 F ltac:(change (0 < 1); lia) ltac:(change (1 + Z.of_nat (length d) < 4294967296); lia)) as [w4 [fr [E4 W4]]]. cbn zeta in *.
    rewrite E4. cbn [bind].
    match goal with |- context [tape_finish_rec 0 0 ?t] => set (t5 := t) in * end.
    assert (EF : tape_finish_rec 0 0 t5 = Ok (set_func t5 FNone, SOk)).
    { unfold tape_finish_rec. change (t_att t5) with (t_att t). rewrite A. change (t_fmt t5) with (t_fmt t). rewrite F. reflexivity. }
    rewrite EF. eexists. split; [reflexivity|].
    rewrite overwrite_cons in W4 by exact KL. cbn [encode1 length].
    replace (k + S (length d))%nat with (S k + length d)%nat by lia. split; [exact W4|]. unfold same_set. cbn. auto.
  - set (t0 := set_srec (set_mark (set_bot t false) false) (Z.of_nat k)).
    destruct (write_bytes_on [p7b_mark] t0 c k W) as [w1 [E1 [W1 D1]]].
    set (t1 := set_func (set_frame (set_orecl (set_lrecl (set_win t0 w1) 0) 0) (t_frame (set_win t0 w1) + 1200)) FMark).
    assert (ES : tape_write_mark t = Ok (t1, SOk)).
    { unfold tape_write_mark. rewrite A, RG. cbn [negb]. cbn zeta. rewrite CU. fold t0.
      change (t_fmt t0) with (t_fmt t). rewrite F, E1. reflexivity. }
    rewrite ES. cbn [bind write_frames]. eexists. unfold tape_finish_rec.
    change (t_att t1) with (t_att t). rewrite A. cbn [negb]. change (t_fmt t1) with (t_fmt t). rewrite F.
    change (t_mark t1) with false. change (t_func t1) with FMark. unfold finish_end. change (t_parity t1) with (t_parity t). rewrite PA.
    split; [reflexivity|]. split; [exact W1|]. unfold same_set. cbn. auto.
Qed.
Lemma write_items_p7b l : forall t c k, won t c k -> t_fmt t = P7B -> t_ring t = true -> t_parity t = false ->
  Forall (good_item P7B) l -> Forall (fun x => match x with Rec d => Z.of_nat (length d) < 4294967296 | Mark => True end) l ->
  exists t', write_items t l = Ok (t', SOk) /\ won t' (overwrite c k (encode P7B l)) (k + length (encode P7B l)) /\ same_set t t'.
Proof.
  induction l as [|x l IH]; intros t c k W F RG PA G GL.
  - exists t. cbn [write_items encode flat_map length]. rewrite Nat.add_0_r, overwrite_nil by (apply (on_le t), won_on; exact W).
    split; [reflexivity|]. split; [exact W|]. unfold same_set. auto.
  - inversion G as [|? ? G1 G2]; subst. inversion GL as [|? ? L1 L2]; subst. pose proof (on_le _ _ _ (won_on _ _ _ W)) as KL.
    destruct (write_item_p7b t c k x W F RG PA G1 L1) as [t1 [E1 [W1 S1]]].
    pose proof S1 as [F1 [R1 [ET1 P1]]].
    destruct (IH t1 _ _ W1 ltac:(congruence) ltac:(congruence) P1 G2 L2) as [t2 [E2 [W2 S2]]].
    exists t2. cbn [write_items]. rewrite E1. cbn [bind]. split; [exact E2|].
    rewrite overwrite_app in W2 by exact KL. unfold encode at 1 2. cbn [flat_map]. rewrite app_length, Nat.add_assoc. split; [exact W2|].
    unfold same_set in *. intuition congruence.
Qed.

Lemma closed_any l post : closed l [] -> closed l post.
Proof.
  induction l as [|x l IH]; [auto|]. destruct l as [|x' l]; [destruct x; cbn; tauto|]. intros H. destruct x; apply IH; exact H.
Qed.
Lemma round_trip_p7b d0 c hi l n junk steps sz : length (w_buf (t_win d0)) = BS -> t_parity d0 = false ->
  Forall (good_item P7B) l -> Forall (fun x => match x with Rec d => Z.of_nat (length d) < 4294967296 | Mark => True end) l ->
  fits n l -> closed l [] -> 0 < sz ->
  exists t1 t2, write_items (tape_attach d0 c P7B true hi) l = Ok (t1, SOk) /\ tape_start_rewind t1 = (t2, SOk) /\
    w_file (t_win t2) = overwrite c 0 (encode P7B l) /\
    (t_frame t2 < Z.of_nat (S steps) * sz ->
     exists t3 t4, rewind_steps (S steps) sz t2 = (t3, SBot) /\
       read_items (length l) n junk false t3 = Ok (t4, map GItem l)).
Proof.
  intros HB PA G GL FT CL Hs.
  destruct (write_items_p7b l _ c 0 (attach_won d0 c P7B hi HB) eq_refl eq_refl PA G GL) as [t1 [E1 [W1 [F1 [R1 [ET1 P1]]]]]].
  cbn in F1, R1, ET1.
  destruct (start_rewind_on _ _ _ (won_on _ _ _ W1)) as [w2 [E2 [O2 [FI [D2 _]]]]].
  exists t1, (set_win t1 w2). split; [exact E1|]. split; [exact E2|]. split; [exact FI|]. intros HF.
  assert (A2 : t_att (set_win t1 w2) = true) by apply O2.
  pose proof (rewind_steps_ok steps sz _ Hs A2 HF) as E3. set (t3 := set_bot (set_frame (set_win t1 w2) 0) true) in *.
  assert (OE : overwrite c 0 (encode P7B l) = [] ++ encode P7B l ++ skipn (length (encode P7B l)) c) by reflexivity.
  assert (O3 : on t3 ([] ++ encode P7B l ++ skipn (length (encode P7B l)) c) (length (@nil Z))) by (rewrite <- OE; exact O2).
  pose proof (closed_any l (skipn (length (encode P7B l)) c) CL) as CL2.
  destruct (read_items_p7b l t3 [] (skipn (length (encode P7B l)) c) n junk O3 F1 ET1 G FT CL2) as [t4 [E4 [O4 [AL _]]]].
  exists t3, t4. split; [exact E3|]. exact E4.
Qed.

(** *** The end of a P7B tape *)
Lemma frame_eof t c d : on t c (length c) -> t_fmt t = P7B -> t_func t = FRead -> t_mark t = false -> t_lrecl t <> 2 -> irg d = false ->
  exists w' fr, let t' := set_frame (set_lrecl (set_eot (set_win t w') true) 1) fr in
    tape_read_frame t d = Ok (t', SEot, no_irg d) /\ on t' c (length c).
Proof.
  intros O1 F FU MK LR I. assert (A : t_att t = true) by apply O1.
  destruct (read_byte_end t c d O1) as [w' [E [O2 R]]].
  unfold tape_read_frame. rewrite A, MK, F, FU. cbn [negb]. replace (t_lrecl t =? 2) with false by lia. rewrite E. cbn [bind].
  rewrite I, andb_false_r. exists w'. eexists. cbn zeta. split; [reflexivity|exact O2].
Qed.
Lemma no_irg_irg d : irg (no_irg d) = false.
Proof.
  unfold irg, no_irg. rewrite <- Z.land_assoc. change (Z.land 127 128) with 0. rewrite Z.land_0_r. reflexivity.
Qed.
Lemma skip_eof n : forall t c d, on t c (length c) -> t_fmt t = P7B -> t_func t = FRead -> t_mark t = false -> t_lrecl t <> 2 ->
  irg d = false -> skip_p7b n t d = NoFuel.
Proof.
  induction n as [|n IH]; intros t c d O1 F FU MK LR I; cbn [skip_p7b]; replace (t_lrecl t =? 2) with false by lia; [reflexivity|].
  destruct (frame_eof t c d O1 F FU MK LR I) as [w' [fr [E O2]]]. cbn zeta in *. rewrite E. cbn [bind].
  apply (IH _ c); auto; [cbn; lia|]. apply no_irg_irg.
Qed.
Lemma finish_eof n t c junk : on t c (length c) -> t_fmt t = P7B -> t_func t = FRead -> t_mark t = false -> t_lrecl t <> 2 ->
  irg junk = false -> tape_finish_rec n junk t = NoFuel.
Proof.
  intros O1 F FU MK LR I. unfold tape_finish_rec. assert (A : t_att t = true) by apply O1. rewrite A, F, MK, FU. cbn [negb].
  rewrite (skip_eof n t c junk); auto.
Qed.

Lemma p7b_frames_eof r : forall t pre n, let c := pre ++ r in
  on t c (length pre) -> t_fmt t = P7B -> t_func t = FRead -> t_mark t = false -> t_bot t = false -> t_eot t = false ->
  t_lrecl t = 1 -> Forall (fun x => 0 <= x < 128) r -> (length r < n)%nat ->
  exists t', read_frames n t = Ok (t', SEot, r) /\ on t' c (length c) /\ t_fmt t' = P7B /\ t_func t' = FRead /\ t_mark t' = false /\
    t_lrecl t' = 1.
Proof.
  induction r as [|x r IH]; intros t pre n c O1 F FU MK BT ET LR G Hn; (destruct n as [|n]; [cbn in Hn; lia|]); cbn [read_frames length] in *.
  - assert (O2 : on t c (length c)) by (unfold c at 2; rewrite app_nil_r; exact O1).
    destruct (frame_eof t c 0 O2 F FU MK ltac:(lia) eq_refl) as [w' [fr [E O3]]]. cbn zeta in *. rewrite E. cbn [bind].
    eexists. split; [reflexivity|]. split; [exact O3|]. cbn. auto.
  - inversion G as [|? ? G1 G2]; subst. destruct (char_facts x G1) as [I1 [I2 _]].
    pose proof (p7b_frame t c (length pre) x 0 O1 (nth_mid _ _ _) F FU MK BT ET ltac:(lia)) as X.
    rewrite I1, andb_false_r, I2 in X. destruct X as [w1 [fr1 [E1 [O2 R1]]]].
    assert (Ec : c = (pre ++ [x]) ++ r) by (unfold c; rewrite <- app_assoc; reflexivity).
    rewrite Ec in O2. replace (S (length pre)) with (length (pre ++ [x])) in O2 by (rewrite app_length; cbn; lia).
    destruct (IH _ _ n O2 F FU MK BT ET eq_refl G2 ltac:(lia)) as [t' [E2 [O3 X]]].
    exists t'. rewrite E1. cbn [bind]. rewrite E2. cbn [bind]. split; [reflexivity|]. rewrite <- Ec in O3. split; [exact O3|exact X].
Qed.
Lemma read_item_p7b_last t pre d n junk : let c := pre ++ encode1 P7B (Rec d) in
  on t c (length pre) -> t_fmt t = P7B -> t_eot t = false -> good_item P7B (Rec d) -> (length d < n)%nat -> irg junk = false ->
  read_item n junk false t = NoFuel.
Proof.
  intros c O1 F ET G Hn I. unfold read_item.
  destruct d as [|y r]; [destruct G; congruence|]. destruct G as [_ [G HD]]. cbn [hd] in HD. inversion G as [|? ? G1 G2]; subst.
  destruct (char_facts y G1) as [_ [_ [I1 [I2 [I3 _]]]]]. cbn [encode1] in c.
  pose proof (p7b_forw t c (length pre) (Z.lor y 128) O1 (nth_mid _ _ _) F ET) as X.
  destruct (Z.eqb_spec (Z.lor y 128) p7b_mark) as [Em|Em]; [elim HD; apply I3; exact Em|].
  destruct X as [t1 [E1 [O2 [AL [B1 [FU [MK [PA LR]]]]]]]]. rewrite E1. cbn [bind].
  pose proof AL as [F1 [_ [ET1 _]]]. rewrite F in F1. rewrite ET in ET1.
  destruct n as [|n]; [lia|]. cbn [read_frames length] in *.
  pose proof (p7b_frame t1 c (length pre) (Z.lor y 128) 0 O2 (nth_mid _ _ _) F1 FU MK B1 ET1 ltac:(lia)) as X.
  rewrite LR in X. cbn [Z.eqb andb] in X. destruct X as [w2 [fr2 [E2 [O3 R2]]]]. rewrite E2. cbn [bind].
  assert (Ec : c = (pre ++ [Z.lor y 128]) ++ r) by (unfold c; rewrite <- app_assoc; reflexivity).
  rewrite Ec in O3. replace (S (length pre)) with (length (pre ++ [Z.lor y 128])) in O3 by (rewrite app_length; cbn; lia).
  destruct (p7b_frames_eof r _ _ n O3 F1 FU MK B1 ET1 eq_refl G2 ltac:(lia)) as [t' [E3 [O4 [F4 [FU4 [MK4 LR4]]]]]].
  rewrite E3. cbn [bind]. rewrite (finish_eof (S n) t' _ junk O4 F4 FU4 MK4 ltac:(lia) I). reflexivity.
Qed.
