(** Properties C09-C19: the card code tables, decks and hopper. *)
From Verif Require Import Base.Bits Card.Tables Card.Model Card.Spec Card.Proofs Card.Proofs2.

(** Cards used in the examples: "AB", and a card punched 12-11-10-... in column 1 and 2. *)
Definition ab_card : card := 2304 :: 2176 :: repeat 0 78.
Definition lace_card : card := repeat 4095 80.
Lemma ab_is_card : is_card ab_card.
Proof. split; [reflexivity|]. apply Forall_forall. intros h Hh. apply (forallb_forall (fun h => (0 <=? h) && (h <? 4096)) ab_card) in Hh; [lia|reflexivity]. Qed.
Lemma lace_is_card : is_card lace_card.
Proof. split; [reflexivity|]. apply Forall_forall. intros h Hh. apply (forallb_forall (fun h => (0 <=? h) && (h <? 4096)) lace_card) in Hh; [lia|reflexivity]. Qed.

(** *** C10.  Every byte has a card code that translates back to it; any column is translated, to 0x100 exactly
    when it is the code of no byte. *)
Theorem C10_ebcdic_card_code_invertible :
  (forall e, 0 <= e < 256 -> exists h, 0 <= h < 4096 /\ ebcdic_to_hol e = Ok h /\ hol_to_ebcdic h = Ok e) /\
  (forall h, 0 <= h < 4096 -> exists e, hol_to_ebcdic h = Ok e /\
     (e = 256 \/ (0 <= e < 256 /\ ebcdic_to_hol e = Ok h))).
Proof. exact (conj ebcdic_inverse hol_table_inverse). Qed.
Print Assumptions C10_ebcdic_card_code_invertible.
Example C10_values : ebcdic_to_hol 193 = Ok 2304 /\ hol_to_ebcdic 2304 = Ok 193 /\ hol_to_ebcdic 4095 = Ok 256.
Proof. repeat split; vm_compute; reflexivity. Qed.

(** *** C11.  ASCII to card code and back: exact for all printable characters but + [ \ ] ^ { }, for which ascii_to_hol
    uses another card code than hol_to_ascii. *)
Definition ascii_there_and_back (c : Z) : res Z := let* h := ascii_to_hol c in hol_to_ascii h.
Theorem C11_ascii_card_code_invertible_partial :
  forall c, 32 <= c < 127 -> ~ In c [43; 91; 92; 93; 94; 123; 125] -> ascii_there_and_back c = Ok c.
Proof.
  intros c Hc Hn.
  pose proof (sweep 127 (fun c => (c <? 32) || existsb (fun x => x =? c) [43; 91; 92; 93; 94; 123; 125] || res_eqb (ascii_there_and_back c) c)
    ltac:(vm_compute; reflexivity) c ltac:(lia)) as H. cbn beta in H.
  replace (c <? 32) with false in H by lia. cbn [orb] in H.
  destruct (existsb (fun x => x =? c) [43; 91; 92; 93; 94; 123; 125]) eqn:E.
  - exfalso. apply Hn. apply existsb_exists in E. destruct E as [x [Hx Ex]]. apply Z.eqb_eq in Ex. subst x. exact Hx.
  - apply res_eqb_eq. exact H.
Qed.
Print Assumptions C11_ascii_card_code_invertible_partial.
Theorem C11_seven_characters_refuted :
  forall c, In c [43; 91; 92; 93; 94; 123; 125] -> 32 <= c < 127 /\ ascii_there_and_back c <> Ok c.
Proof.
  intros c H. cbn [In] in H. repeat (destruct H as [<-|H]; [split; [lia|vm_compute; discriminate]|]). contradiction.
Qed.
Print Assumptions C11_seven_characters_refuted.
Example C11_value : ascii_there_and_back 65 = Ok 65. Proof. reflexivity. Qed.

(** *** C12.  Any non-empty deck saved in binary mode is 160 bytes per card and loads again in binary and in auto
    mode as the same cards, behind the cards already in the hopper. *)
Theorem C12_binary_decks_round_trip :
  forall m deck, m = MBin \/ m = MAuto -> Forall is_card deck -> deck <> [] ->
  exists bytes, saved MBin deck bytes /\ loads m bytes deck /\ length bytes = (160 * length deck)%nat.
Proof. exact bin_round_trip. Qed.
Print Assumptions C12_binary_decks_round_trip.
Example C12_hypotheses_met : Forall is_card [ab_card; lace_card] /\ [ab_card; lace_card] <> [].
Proof. split; [constructor; [exact ab_is_card|constructor; [exact lace_is_card|constructor]]|discriminate]. Qed.

(** *** C13.  Printable decks in text mode, except for cards whose text is a control line. *)
Theorem C13_text_decks_round_trip_partial :
  forall m deck, m = MText \/ m = MOctal -> Forall (fun img => printable_card img /\ text_safe img) deck -> deck <> [] ->
  exists bytes, saved MText deck bytes /\ loads m bytes deck.
Proof. exact text_round_trip. Qed.
Print Assumptions C13_text_decks_round_trip_partial.

Lemma ab_printable : printable_card ab_card.
Proof.
  split; [exact ab_is_card|]. unfold ab_card. constructor; [exists 65; split; [lia|reflexivity]|].
  constructor; [exists 66; split; [lia|reflexivity]|].
  apply Forall_forall. intros h Hh. apply repeat_spec in Hh. subst h. exists 32. split; [lia|reflexivity].
Qed.
Lemma ab_text_safe : text_safe ab_card.
Proof.
  intros t H. unfold ab_card in H. inversion H as [|? a ? t' [Ha1 Ha2] _]; subst. unfold control_line.
  destruct (a =? 126) eqn:E; [|reflexivity]. assert (a = 126) by lia. subst a. vm_compute in Ha2. discriminate.
Qed.
Example C13_hypotheses_met : Forall (fun img => printable_card img /\ text_safe img) [ab_card] /\ [ab_card] <> [].
Proof. split; [constructor; [split; [exact ab_printable|exact ab_text_safe]|constructor]|discriminate]. Qed.

(** A card with the text ~EOR is written as such and comes back as an end-of-record card. *)
Definition eor_text_card : card := Eval vm_compute in
  match mapres (tab ascii_to_hol_029) [126; 69; 79; 82] with Ok l => l ++ repeat 0 76 | _ => [] end.
Theorem C13_control_text_refuted :
  printable_card eor_text_card /\
  exists bytes, file_of MText [eor_text_card] = Ok bytes /\ deck_in MText bytes = Ok [7 :: repeat 0 79].
Proof.
  split.
  - assert (H : forallb (fun h => existsb (fun a => (32 <=? a) && res_eqb (tab ascii_to_hol_029 a) h) (zrange 127)) eor_text_card = true)
      by (vm_compute; reflexivity).
    assert (H2 : forallb (fun h => (0 <=? h) && (h <? 4096)) eor_text_card = true) by (vm_compute; reflexivity).
    split; [split; [reflexivity|]|]; apply Forall_forall; intros h Hh.
    + rewrite forallb_forall in H2. specialize (H2 h Hh). lia.
    + rewrite forallb_forall in H. specialize (H h Hh). apply existsb_exists in H. destruct H as [a [Ha H]].
      apply andb_true_iff in H. destruct H as [H1 H3]. apply res_eqb_eq in H3.
      exists a. split; [|exact H3]. apply tab_range in H3 as H4.
      assert (Ha' : forallb (fun a => (0 <=? a) && (a <? 127)) (zrange 127) = true) by (vm_compute; reflexivity).
      rewrite forallb_forall in Ha'. specialize (Ha' a Ha). lia.
  - eexists. split; [vm_compute; reflexivity|]. vm_compute; reflexivity.
Qed.
Print Assumptions C13_control_text_refuted.

(** *** C14.  Decks in octal mode, except for cards punched in column one only (other than 7, 13, 15). *)
Theorem C14_octal_decks_round_trip_partial :
  forall m deck, m = MText \/ m = MOctal -> Forall (fun img => is_card img /\ octal_safe img) deck -> deck <> [] ->
  exists bytes, saved MOctal deck bytes /\ loads m bytes deck.
Proof. exact octal_round_trip. Qed.
Print Assumptions C14_octal_decks_round_trip_partial.
Example C14_hypotheses_met : Forall (fun img => is_card img /\ octal_safe img) [lace_card; 13 :: repeat 0 79].
Proof.
  constructor; [split; [exact lace_is_card|intros [h [_ H]]; discriminate]|]. constructor; [|constructor]. split.
  - split; [reflexivity|]. constructor; [lia|]. apply Forall_forall. intros h Hh. apply repeat_spec in Hh. lia.
  - intros _. right. left. reflexivity.
Qed.

(** The card with only the 12 row of column one punched comes back as an end-of-record card. *)
Theorem C14_only_column_one_refuted :
  exists bytes, file_of MOctal [2048 :: repeat 0 79] = Ok bytes /\ deck_in MOctal bytes = Ok [7 :: repeat 0 79].
Proof. eexists. split; [vm_compute; reflexivity|]. vm_compute; reflexivity. Qed.
Print Assumptions C14_only_column_one_refuted.

(** *** C15.  Decks of EBCDIC columns in EBCDIC mode. *)
Theorem C15_ebcdic_decks_round_trip :
  forall deck, Forall ebcdic_card deck -> deck <> [] ->
  exists bytes, saved MEbcdic deck bytes /\ loads MEbcdic bytes deck.
Proof. exact ebc_round_trip. Qed.
Print Assumptions C15_ebcdic_decks_round_trip.
Example C15_hypotheses_met : Forall ebcdic_card [ab_card].
Proof.
  constructor; [|constructor]. split; [exact ab_is_card|]. unfold ab_card. constructor; [exists 193; split; [lia|reflexivity]|].
  constructor; [exists 194; split; [lia|reflexivity]|].
  apply Forall_forall. intros h Hh. apply repeat_spec in Hh. subst h. exists 64. split; [lia|reflexivity].
Qed.

(** *** C16.  Every history of reads, loads of any files, blank decks and stacked cards behaves like a queue: same
    results of the reads, same contents, and hopper_size counts what is left. *)
Theorem C16_hopper_is_a_queue :
  forall os,
  match srun MAuto [] os with
  | Ok (q, outs) => exists c, crun init_ctx os = Ok (c, outs) /\ unread c = q /\ hopper_size c = Z.of_nat (length q)
  | UB => crun init_ctx os = UB
  | NoFuel => crun init_ctx os = NoFuel
  end.
Proof.
  intros os. assert (Hok : ctx_ok init_ctx) by (unfold ctx_ok; cbn; lia).
  pose proof (crun_queue os init_ctx Hok eq_refl) as H. change (unread init_ctx) with (@nil card) in H.
  change (c_mode init_ctx) with MAuto in H. destruct (srun MAuto [] os) as [[q outs]| |]; auto.
  destruct H as [c [E [H1 [H2 H3]]]]. exists c. split; [exact E|]. split; [exact H3|].
  rewrite <- H3. apply hopper_size_unread. exact H1.
Qed.
Print Assumptions C16_hopper_is_a_queue.
(** From any state and in any mode. *)
Theorem C16_hopper_is_a_queue_everywhere :
  forall os c, ctx_ok c -> c_file c = None ->
  match srun (c_mode c) (unread c) os with
  | Ok (q, outs) => exists c', crun c os = Ok (c', outs) /\ ctx_ok c' /\ c_file c' = None /\ unread c' = q
  | UB => crun c os = UB
  | NoFuel => crun c os = NoFuel
  end.
Proof. exact crun_queue. Qed.
Print Assumptions C16_hopper_is_a_queue_everywhere.
Example C16_run : match srun MAuto [] [OStack ab_card; OBlank 2; ORead; OLoad 9 (fun _ _ => 0) [65; 66; 10; 67; 10]; ORead; ORead; ORead; ORead; ORead] with
  | Ok (q, outs) => q = [] /\ outs = [Some ab_card; Some blank; Some blank; Some ab_card; Some (2112 :: repeat 0 79); None] | _ => False end.
Proof. vm_compute. split; reflexivity. Qed.

(** *** C17.  Saving writes exactly the unread cards, in order, and empties the hopper. *)
Theorem C17_save_writes_the_unread_cards :
  forall c, ctx_ok c -> Forall is_card (unread c) ->
  exists bs c', Forall2 (fun img b => punch_bytes (c_mode c) img = Ok b) (unread c) bs /\
    save_deck c = Ok c' /\ snd (close_deck c') = Some (concat bs) /\ hopper_size c' = 0.
Proof. exact save_unread. Qed.
Print Assumptions C17_save_writes_the_unread_cards.
Example C17_hypotheses_met : let c := Ctx MText [blank; ab_card; lace_card] 3 1 None in
  ctx_ok c /\ Forall is_card (unread c) /\ unread c = [ab_card; lace_card].
Proof.
  cbn zeta. split; [unfold ctx_ok; cbn; lia|]. split; [|reflexivity].
  change (Forall is_card [ab_card; lace_card]). constructor; [exact ab_is_card|constructor; [exact lace_is_card|constructor]].
Qed.

(** empty_cards with a punch file open writes, for each unread card, the card behind the last one instead; with a
    full array it reads outside the array. *)
Theorem C17_empty_cards_refuted :
  (exists c, empty_cards (Ctx MText [ab_card; ab_card; blank] 2 0 (Some [])) = Ok c /\ c_file c = Some [32; 10; 32; 10]) /\
  empty_cards (Ctx MText [ab_card; ab_card] 2 0 (Some [])) = UB.
Proof. split; [eexists; split|]; vm_compute; reflexivity. Qed.
Print Assumptions C17_empty_cards_refuted.
(** Without a file it just empties the hopper. *)
Theorem C17_empty_cards_without_file_partial :
  forall c, c_file c = None -> exists c', empty_cards c = Ok c' /\ unread c' = [] /\ ctx_ok c' /\ hopper_size c' = 0 /\ c_file c' = None.
Proof.
  intros c H. unfold empty_cards. rewrite H. cbn [bind]. eexists. split; [reflexivity|].
  unfold unread, ctx_ok, hopper_size. cbn [c_cards c_pos c_file c_images c_mode]. repeat split; auto; lia.
Qed.
Print Assumptions C17_empty_cards_without_file_partial.

(** *** C09.  With a punch file open and no unread cards, every stacked card goes to the file at once, in order. *)
Theorem C09_stacked_cards_are_written_in_order :
  forall deck bs c f, ctx_ok c -> unread c = [] -> c_file c = Some f ->
  Forall2 (fun img b => punch_bytes (c_mode c) img = Ok b) deck bs ->
  exists c', stack_all c deck = Ok c' /\ ctx_ok c' /\ unread c' = [] /\ c_file c' = Some (f ++ concat bs) /\
    stack_size c' = stack_size c + Z.of_nat (length deck).
Proof. exact stack_all_ok. Qed.
Print Assumptions C09_stacked_cards_are_written_in_order.
Example C09_hypotheses_met : ctx_ok (Ctx MText [] 0 0 (Some [])) /\
  Forall2 (fun img b => punch_bytes MText img = Ok b) [ab_card; blank] [[65; 66; 10]; [32; 10]].
Proof. split; [unfold ctx_ok; cbn; lia|]. repeat constructor; vm_compute; reflexivity. Qed.

(** *** C18.  Loading terminates without undefined behaviour for ASCII files in text and octal mode, any file in EBCDIC
    mode, and binary files that are empty or hold at least one card, whatever is in the hopper. *)
Theorem C18_loading_terminates_safely_partial :
  forall m bytes c junk fuel, file_ok m bytes -> junk_ok junk -> ctx_ok c -> c_mode c = m -> (length bytes < fuel)%nat ->
  exists c', read_deck fuel junk c bytes = Ok c' /\ ctx_ok c'.
Proof. exact read_deck_total. Qed.
Print Assumptions C18_loading_terminates_safely_partial.
Example C18_hypotheses_met : file_ok MText [126; 114; 97; 13] /\ junk_ok (fun _ _ => 0) /\ ctx_ok (empty_ctx MText).
Proof. split; [cbn; repeat constructor; lia|]. split; [intros k; discriminate|unfold ctx_ok; cbn; lia]. Qed.

(** A binary file of 1 to 159 bytes is read for ever. *)
Theorem C18_short_binary_file_loops_refuted :
  forall c junk bytes, ctx_ok c -> c_mode c = MBin -> (0 < length bytes < 160)%nat ->
  forall fuel, read_deck fuel junk c bytes = NoFuel.
Proof. exact read_deck_diverges. Qed.
Print Assumptions C18_short_binary_file_loops_refuted.
(** A byte above 127 in a text file reads outside the code table; ~raw with a newline among the digits makes
    a column that read_card cannot handle. *)
Theorem C18_out_of_bounds_refuted :
  read_deck 10 (fun _ _ => 0) (empty_ctx MText) [65; 200; 10] = UB /\
  crun (empty_ctx MText) [OLoad 10 (fun _ _ => 0) [126; 114; 97; 119; 10; 49]; ORead] = UB.
Proof. split; vm_compute; reflexivity. Qed.
Print Assumptions C18_out_of_bounds_refuted.

(** *** C19.  Decks saved in AUTO mode load in text and octal mode; in AUTO mode if no card starts with a blank column or
    one of 0 @ P ` p. *)
Theorem C19_auto_decks_round_trip_partial :
  forall m deck, m = MText \/ m = MOctal \/ m = MAuto ->
  Forall (fun img => auto_safe img /\ (m = MAuto -> ~ starts_low img)) deck -> deck <> [] ->
  exists bytes, saved MAuto deck bytes /\ loads m bytes deck.
Proof.
  intros m deck Hm Hd Hne. apply auto_round_trip; auto. eapply Forall_impl; [|exact Hd].
  intros img [H1 H2]. split; [exact H1|]. intros E. apply starts_low_first; auto.
Qed.
Print Assumptions C19_auto_decks_round_trip_partial.
Example C19_hypotheses_met : auto_safe ab_card /\ ~ starts_low ab_card.
Proof.
  split; [left; split; [exact ab_printable|exact ab_text_safe]|].
  intros [h [r [a [E [[Ha Hp] Hm]]]]]. injection E as <- _.
  pose proof (sweep 127 (fun a => (a <? 32) || negb (res_eqb (tab ascii_to_hol_029 a) 2304) || negb (a mod 16 =? 0))
    ltac:(vm_compute; reflexivity) a ltac:(lia)) as H. cbn beta in H. rewrite Hp in H. unfold res_eqb in H. lia.
Qed.

(** Eighty blank cards saved in AUTO mode load in AUTO mode as one binary card. *)
Theorem C19_blank_deck_refuted :
  exists bytes, file_of MAuto (repeat blank 80) = Ok bytes /\ deck_in MAuto bytes = Ok [repeat 162 80].
Proof. eexists. split; [vm_compute; reflexivity|]. vm_compute; reflexivity. Qed.
Print Assumptions C19_blank_deck_refuted.
