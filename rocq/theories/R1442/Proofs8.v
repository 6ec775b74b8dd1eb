(** Proofs about the keys of the panel (C59). *)
From Verif Require Import R1442.Spec3 R1442.Proofs R1442.Proofs2 Card.Proofs Card.Proofs2.

Lemma empty_settled c : settled c -> exists c', empty_cards c = Ok c' /\ unread c' = [] /\ stacked c' = [] /\ settled c'.
Proof.
  intros H. unfold empty_cards. assert (E : (match c_file c with Some _ => empty_loop (c_cards c - c_pos c) c | None => Ok c end) = Ok c).
  { destruct (c_file c) eqn:F; [|reflexivity]. destruct H as [H|H]; [congruence|]. rewrite H, Nat.sub_diag. reflexivity. }
  rewrite E. cbn [bind]. eexists. split; [reflexivity|]. unfold unread, stacked, settled. cbn [c_cards c_pos c_images c_file]. split; [reflexivity|]. split; [reflexivity|]. right. reflexivity.
Qed.
Ltac only_here := split; [reflexivity|]; split; [reflexivity|]; split; [reflexivity|]; split; [let N := fresh in intros [] N; try reflexivity; contradiction N; reflexivity|reflexivity].
Lemma key_empty : forall s p, settled (at_place p s) ->
  exists s', do_key s (empty_key p) = Ok s' /\ only_at p s s' /\ unread (at_place p s') = [] /\ stacked (at_place p s') = [] /\ settled (at_place p s').
Proof.
  intros s p H. destruct (empty_settled _ H) as (c & E & U & K & S). destruct p; cbn [at_place empty_key] in *; unfold do_key; rewrite E; cbn [bind];
    (eexists; split; [reflexivity|]; split; [only_here|]; split; [exact U|]; split; [exact K|exact S]).
Qed.
Lemma key_blank : forall s n, ctx_ok (d_feed s) -> exists s', do_key s (KBlank n) = Ok s' /\ only_at Hopper s s' /\
  unread (d_feed s') = unread (d_feed s) ++ repeat blank (Z.to_nat (if 0 <? n then n else 1)).
Proof.
  intros s n H. unfold do_key, blank_deck. set (k := if 0 <? n then n else 1). destruct (compact_ok _ H) as (c1 & E1 & K1 & K2 & _). rewrite E1. cbn [bind].
  destruct (blank_loop_ok (Z.to_nat k) c1 K1) as (c2 & E2 & _ & B & _). rewrite E2. cbn [bind]. eexists. split; [reflexivity|]. split; [only_here|].
  etransitivity; [exact B|]. rewrite K2. reflexivity.
Qed.
Lemma key_load : forall s fuel junk bytes c, read_deck fuel junk (d_feed s) bytes = Ok c ->
  exists s', do_key s (KLoad fuel junk bytes) = Ok s' /\ only_at Hopper s s' /\ d_feed s' = c.
Proof. intros s fuel junk bytes c H. unfold do_key. rewrite H. cbn [bind]. eexists. split; [reflexivity|]. split; [only_here|reflexivity]. Qed.
Lemma key_save : forall s, ctx_good (d_stack0 s) -> exists s' bs, do_key s KSave1 = Ok s' /\ only_at Stacker1 s s' /\
  Forall2 (fun img b => punch_bytes (c_mode (d_stack0 s)) img = Ok b) (unread (d_stack0 s)) bs /\ c_file (d_stack0 s') = Some (concat bs) /\
  stacked (d_stack0 s') = stacked (d_stack0 s).
Proof.
  intros s [O I]. destruct (save_unread _ O I) as (bs & c & B & E & F & _). destruct (save_good _ (conj O I)) as (c2 & E2 & _ & K).
  rewrite E in E2. injection E2 as <-. unfold do_key. rewrite E. cbn [bind]. eexists. exists bs. split; [reflexivity|]. split; [only_here|]. split; [exact B|]. split; [exact F|exact K].
Qed.
Lemma key_save2 : forall s, do_key s KSave2 = do_key s KSave1 /\ forall s', do_key s KSave2 = Ok s' -> d_stack1 s' = d_stack1 s.
Proof. intros s. split; [reflexivity|]. intros s'. unfold do_key. destruct (save_deck (d_stack0 s)); cbn [bind]; intros H; inversion H. reflexivity. Qed.
Lemma key_switches : forall s,
  (exists s', do_key s KEof = Ok s' /\ interface s' = interface s /\ stations s' = stations s /\ same_cards s s' /\
     d_eof s' = negb (d_eof s) /\ d_rdy s' = d_rdy s /\ d_stop s' = d_stop s /\ d_hop_cnt s' = hopper_size (d_feed s)) /\
  (exists s', do_key s KStop = Ok s' /\ interface s' = interface s /\ stations s' = stations s /\ same_cards s s' /\
     d_stop s' = true /\ d_rdy s' = d_rdy s /\ d_eof s' = d_eof s /\ d_hop_cnt s' = hopper_size (d_feed s)).
Proof. intros s. split; (eexists; split; [reflexivity|]; do 2 (split; [reflexivity|]); split; [intros []; reflexivity|]; repeat split). Qed.
Lemma key_start : forall s,
  (d_st s <> IDLE -> exists s', do_key s KStart = Ok s' /\ interface s' = interface s /\ stations s' = stations s /\ switches s' = switches s /\ same_cards s s') /\
  (d_st s = IDLE -> d_rdr_full s = true -> exists s', do_key s KStart = Ok s' /\ stations s' = stations s /\ switches s' = switches s /\ same_cards s s' /\
     d_status s' = 4 /\ d_data_end s' = true /\ d_feed_done s' = true /\ d_st s' = IDLE /\ d_sense s' = d_sense s).
Proof.
  intros s. split.
  - intros N. exists (set_hop_cnt (hopper_size (d_feed s)) s). split; [unfold do_key; destruct (d_st s); try reflexivity; contradiction|]. do 3 (split; [reflexivity|]). intros []; reflexivity.
  - intros I F. unfold do_key. rewrite I, F. cbn [negb bind]. rewrite F. eexists. split; [reflexivity|]. do 2 (split; [reflexivity|]). split; [intros []; reflexivity|]. do 3 (split; [reflexivity|]). split; [exact I|reflexivity].
Qed.

(** *** Tidy devices stay tidy *)
Lemma flush_pos : forall n c c', flush_loop n c = Ok c' -> c_cards c' = c_cards c /\ c_pos c' = (c_pos c + n)%nat.
Proof.
  induction n as [|n IH]; intros c c' H; cbn [flush_loop] in H; [injection H as <-; split; [reflexivity|symmetry; apply Nat.add_0_r]|].
  destruct (punch_slot c (c_pos c)) as [c1| |] eqn:P; cbn [bind] in H; try discriminate H. apply IH in H. destruct H as [H1 H2]. unfold punch_slot in P.
  destruct (nth_error _ _); [|discriminate P]. destruct (punch_bytes _ _); cbn [bind] in P; try discriminate P. destruct (c_file c); [|discriminate P]. injection P as <-.
  cbn [c_cards c_pos] in *. split; [exact H1|]. rewrite H2. symmetry. apply Nat.add_succ_r.
Qed.
Lemma flush_tidy c c' : (c_pos c <= c_cards c)%nat -> flush_cards c = Ok c' -> tidy c'.
Proof. intros L H. apply flush_pos in H. destruct H as [H1 H2]. unfold tidy, settled. rewrite H1, H2. split; [lia|right; lia]. Qed.
Lemma put_file c img c' : put (grow c) img = Ok c' -> c_file c' = c_file c /\ c_cards c' = S (c_cards c) /\ c_pos c' = c_pos c.
Proof. unfold put, grow. destruct (Nat.leb _ _); destruct (Nat.ltb _ _); intros H; try discriminate H; injection H as <-; repeat split. Qed.
Lemma stack_tidy c img c' : tidy c -> stack_card c img = Ok c' -> tidy c'.
Proof.
  intros [L T] H. unfold stack_card in H. destruct (put (grow c) img) as [c1| |] eqn:P; cbn [bind] in H; try discriminate H. apply put_file in P. destruct P as (F & C & Q).
  destruct (c_file c1) eqn:E; [apply (flush_tidy c1); [lia|exact H]|]. injection H as <-. split; [lia|left; exact E].
Qed.
Lemma save_tidy c c' : tidy c -> save_deck c = Ok c' -> tidy c'.
Proof. intros [L _] H. apply (flush_tidy (Ctx (c_mode c) (c_images c) (c_cards c) (c_pos c) (Some []))); [exact L|exact H]. Qed.
Lemma empty_tidy c c' : tidy c -> empty_cards c = Ok c' -> tidy c' /\ c_file c' = c_file c.
Proof.
  intros [L T] H. unfold empty_cards in H. assert (E : (match c_file c with Some _ => empty_loop (c_cards c - c_pos c) c | None => Ok c end) = Ok c).
  { destruct (c_file c) eqn:F; [|reflexivity]. destruct T as [T|T]; [congruence|]. rewrite T, Nat.sub_diag. reflexivity. }
  rewrite E in H. cbn [bind] in H. injection H as <-. unfold tidy, settled. cbn [c_cards c_pos c_file]. repeat split; [lia|right; reflexivity].
Qed.
Lemma loop_file : forall n c c', blank_loop n c = Ok c' -> c_file c' = c_file c.
Proof.
  induction n as [|n IH]; intros c c' H; cbn [blank_loop] in H; [injection H as <-; reflexivity|].
  destruct (put (grow c) blank) as [c1| |] eqn:P; cbn [bind] in H; try discriminate H. apply IH in H. apply put_file in P. destruct P as [P _]. congruence.
Qed.
Lemma compact_file c c' : compact c = Ok c' -> c_file c' = c_file c.
Proof. unfold compact. destruct (Nat.ltb _ _); [|intros H; injection H as <-; reflexivity]. destruct (move_down _ _ _ _); cbn [bind]; intros H; try discriminate H. injection H as <-. reflexivity. Qed.
Lemma deck_file : forall fuel junk k c d rest eof sz c', deck_loop fuel junk k c d rest eof sz = Ok c' -> c_file c' = c_file c.
Proof.
  induction fuel as [|fuel IH]; intros junk k c d rest eof sz c' H; [discriminate H|]. cbn [deck_loop] in H.
  destruct (if _ && _ then _ else _) as [[d1 r1] e1]. destruct (parse_card _ _ _) as [[img osz]| |]; cbn [bind] in H; try discriminate H.
  destruct (put (grow c) img) as [c2| |] eqn:P; cbn [bind] in H; try discriminate H. apply put_file in P. destruct P as [P _]. rewrite <- P.
  destruct (skipn _ d1); [injection H as <-; reflexivity|]. apply IH in H. exact H.
Qed.
Lemma read_file c c' x : read_card c = Ok (c', x) -> c_file c' = c_file c.
Proof.
  unfold read_card. destruct (Nat.leb _ _); [intros H; injection H as <- _; reflexivity|]. destruct (nth_error _ _); [|discriminate].
  destruct (mapres _ _); cbn [bind]; intros H; try discriminate H. injection H as <- _. reflexivity.
Qed.
Lemma hop_tidy s s' : d_feed s' = d_feed s -> d_stack0 s' = d_stack0 s -> d_stack1 s' = d_stack1 s -> tidy_dev s -> tidy_dev s'.
Proof. intros E1 E2 E3. unfold tidy_dev. rewrite E1, E2, E3. exact (fun H => H). Qed.
Lemma cs_tidy s s' : cs s' = cs s -> tidy_dev s -> tidy_dev s'.
Proof. intros H. apply cs_eq in H. destruct H as (H1 & H2 & H3 & _). apply hop_tidy; assumption. Qed.
Lemma feed_tidy s s' : tidy_dev s -> do_feed s = Ok s' -> tidy_dev s'.
Proof.
  intros T H. unfold do_feed in H. destruct (_ && _); [injection H as <-; exact T|]. cbv zeta in H.
  match type of H with bind ?r _ = _ => destruct r as [s1| |] eqn:E1; cbn [bind] in H; try discriminate H end.
  assert (T1 : tidy_dev s1).
  { destruct (d_pch_full s); [|injection E1 as <-; exact T]. destruct T as (F & T0 & T1). destruct (d_stk_sel s).
    - destruct (stack_card (d_stack1 s) _) as [c| |] eqn:C; cbn [bind] in E1; try discriminate E1. injection E1 as <-. split; [exact F|]. split; [exact T0|exact (stack_tidy _ _ _ T1 C)].
    - destruct (stack_card (d_stack0 s) _) as [c| |] eqn:C; cbn [bind] in E1; try discriminate E1. injection E1 as <-. split; [exact F|]. split; [exact (stack_tidy _ _ _ T0 C)|exact T1]. }
  clear E1 T s. set (s2 := if d_rdr_full s1 then _ else s1) in H. assert (T2 : tidy_dev s2) by (subst s2; destruct (d_rdr_full s1); exact T1). clearbody s2. clear T1 s1.
  match type of H with bind ?r _ = _ => destruct r as [s3| |] eqn:E3; cbn [bind] in H; try discriminate H end.
  assert (T3 : tidy_dev s3).
  { destruct (negb (d_stop s2)); [|injection E3 as <-; exact T2]. destruct (read_card (d_feed s2)) as [[c x]| |] eqn:C; cbn [bind fst snd] in E3; try discriminate E3. apply read_file in C.
    injection E3 as <-. destruct T2 as (F & T0 & T1). destruct x as [i|]; (match goal with |- tidy_dev (if ?b then _ else _) => destruct b end; (split; [exact (eq_trans C F)|]; split; [exact T0|exact T1])). }
  injection H as <-. match goal with |- tidy_dev (if ?b then _ else _) => destruct b end; exact T3.
Qed.
Lemma key_tidy s k s' : tidy_dev s -> do_key s k = Ok s' -> tidy_dev s'.
Proof.
  intros T H. unfold do_key in H. destruct k; cbn [bind] in H.
  - injection H as <-. exact T.
  - destruct (d_st s); cbn [bind] in H; try (injection H as <-; exact T).
    destruct (negb (d_rdr_full s)).
    + destruct (do_feed s) as [s1| |] eqn:E; cbn [bind] in H; try discriminate H. apply feed_tidy in E; [|exact T]. injection H as <-. destruct (d_rdr_full s1); exact E.
    + cbn [bind] in H. injection H as <-. destruct (d_rdr_full s); exact T.
  - destruct (do_feed s) as [s1| |] eqn:E; cbn [bind] in H; try discriminate H. apply feed_tidy in E; [|exact T]. injection H as <-. exact E.
  - injection H as <-. exact T.
  - destruct T as (F & T0 & T1). destruct (empty_cards (d_feed s)) as [c| |] eqn:E; cbn [bind] in H; try discriminate H. injection H as <-.
    unfold empty_cards in E. rewrite F in E. cbn [bind] in E. injection E as <-. split; [exact F|]. split; [exact T0|exact T1].
  - destruct T as (F & T0 & T1). destruct (read_deck _ _ (d_feed s) _) as [c| |] eqn:E; cbn [bind] in H; try discriminate H. injection H as <-.
    unfold read_deck in E. destruct (compact _) as [c1| |] eqn:C; cbn [bind] in E; try discriminate E. apply deck_file in E. apply compact_file in C. split; [exact (eq_trans E C)|]. split; [exact T0|exact T1].
  - destruct T as (F & T0 & T1). destruct (blank_deck (d_feed s) _) as [c| |] eqn:E; cbn [bind] in H; try discriminate H. injection H as <-.
    unfold blank_deck in E. destruct (compact _) as [c1| |] eqn:C; cbn [bind] in E; try discriminate E. apply loop_file in E. apply compact_file in C. split; [exact (eq_trans E (eq_trans C F))|]. split; [exact T0|exact T1].
  - destruct T as (F & T0 & T1). destruct (empty_cards (d_stack0 s)) as [c| |] eqn:E; cbn [bind] in H; try discriminate H. injection H as <-. split; [exact F|]. split; [apply (empty_tidy _ _ T0 E)|exact T1].
  - destruct T as (F & T0 & T1). destruct (save_deck (d_stack0 s)) as [c| |] eqn:E; cbn [bind] in H; try discriminate H. injection H as <-. split; [exact F|]. split; [exact (save_tidy _ _ T0 E)|exact T1].
  - destruct T as (F & T0 & T1). destruct (empty_cards (d_stack1 s)) as [c| |] eqn:E; cbn [bind] in H; try discriminate H. injection H as <-. split; [exact F|]. split; [exact T0|apply (empty_tidy _ _ T1 E)].
  - destruct T as (F & T0 & T1). destruct (save_deck (d_stack0 s)) as [c| |] eqn:E; cbn [bind] in H; try discriminate H. injection H as <-. split; [exact F|]. split; [exact (save_tidy _ _ T0 E)|exact T1].
Qed.
Lemma fire_tidy s k s' : tidy_dev s -> fire s k = Ok s' -> tidy_dev s'.
Proof.
  intros T0 H. unfold fire in H. destruct (existsb _ _); [|injection H as <-; exact T0].
  assert (T : tidy_dev (cancel_ev k s)) by exact T0. revert T H. generalize (cancel_ev k s). clear T0 s. intros s T H.
  destruct k.
  - unfold read_cb in H. repeat (match type of H with context [if ?b then _ else _] => destruct b | context [bind (bind ?r _) _] => destruct r | context [bind ?r _] => destruct r end; cbn [bind] in H; try discriminate H); injection H as <-; exact T.
  - unfold write_cb in H. destruct (d_data_rdy s).
    + cbv zeta in H. injection H as <-. match goal with |- tidy_dev (if ?b then _ else _) => destruct b end; exact T.
    + destruct (d_pch_col s <? 80); [|cbn [bind] in H; injection H as <-; exact T].
      destruct (col (d_pch_card s) (d_pch_col s)) as [v| |]; cbn [bind] in H; try discriminate H. destruct (ebcdic_to_hol (d_data s mod 256)) as [h| |]; cbn [bind] in H; try discriminate H.
      injection H as <-. exact T.
  - unfold feed_cb in H. cbv zeta in H. assert (T1 : tidy_dev (feed_flags s)) by exact T. revert T1 H. generalize (feed_flags s). clear T s. intros s T H.
    destruct (_ && _).
    + apply feed_tidy in H; [exact H|exact T].
    + destruct (do_feed s) as [s2| |] eqn:E; cbn [bind] in H; try discriminate H. apply feed_tidy in E; [|exact T]. injection H as <-. destruct (d_sense s2 =? 0); exact E.
Qed.
Lemma run_tidy a : forall l s s', tidy_dev s -> run a s l = Ok s' -> tidy_dev s'.
Proof.
  induction l as [|x l IH]; intros s s' T H; cbn [run] in H; [injection H as <-; exact T|].
  destruct (astep a s x) as [s1| |] eqn:E; cbn [bind] in H; try discriminate H. apply (IH s1); [|exact H]. destruct x as [t bo bi|k|k]; cbn [astep] in E.
  - destruct (dev_step a s t bo bi) as [r| |] eqn:D; cbn [bind] in E; try discriminate E. injection E as <-. exact (cs_tidy _ _ (chan_cs _ _ _ _ _ _ D) T).
  - exact (fire_tidy _ _ _ T E).
  - exact (key_tidy _ _ _ T E).
Qed.
Lemma tidy_init : tidy_dev init_dev.
Proof. repeat split; try apply Nat.le_refl; left; reflexivity. Qed.
Lemma tidy_settled s p : tidy_dev s -> settled (at_place p s).
Proof. intros (F & [_ T0] & [_ T1]). destruct p; [left; exact F|exact T0|exact T1]. Qed.
Lemma run_empty : forall a l s p, run a init_dev l = Ok s ->
  exists s', do_key s (empty_key p) = Ok s' /\ only_at p s s' /\ unread (at_place p s') = [] /\ stacked (at_place p s') = [].
Proof.
  intros a l s p R. destruct (key_empty s p) as (s' & E & O & U & K & _); [apply tidy_settled, (run_tidy a l init_dev); [exact tidy_init|exact R]|].
  exists s'. split; [exact E|]. split; [exact O|]. split; [exact U|exact K].
Qed.
