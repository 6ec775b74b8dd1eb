From Verif Require Import Base.Bits Card.Tables Card.Model Card.Spec Card.Proofs.

(** ** Round trips of decks *)
Lemma bin_round_trip m deck : m = MBin \/ m = MAuto -> Forall is_card deck -> deck <> [] ->
  exists bytes, saved MBin deck bytes /\ loads m bytes deck /\ length bytes = (160 * length deck)%nat.
Proof.
  intros Hm Hd Hne. exists (concat (map punch_bin deck)). split; [|split].
  - apply save_deck_ok. clear. induction deck as [|i deck IH]; cbn [map]; constructor; auto.
  - apply read_deck_ok; [apply decodable_bin|]; auto.
  - clear Hne. induction Hd as [|i deck [Hl Hc] Hd IH]; [reflexivity|]. cbn [map concat length].
    rewrite app_length, IH, punch_bin_length, Hl. lia.
Qed.

Lemma ebc_round_trip deck : Forall ebcdic_card deck -> deck <> [] ->
  exists bytes, saved MEbcdic deck bytes /\ loads MEbcdic bytes deck.
Proof.
  intros Hd Hne. destruct (decodable_ebc deck Hd) as [encs [H1 H2]].
  exists (concat encs). split; [apply save_deck_ok; exact H1|apply read_deck_ok; auto].
Qed.

(** A generic decodable deck out of per-card facts. *)
Lemma decodable_each m (P : card -> Prop) (f : card -> res (list Z)) :
  (forall img, P img -> exists b, f img = Ok b /\ (0 < length b < 500)%nat /\ forall more, decodes m b img more) ->
  forall deck, Forall P deck ->
  exists encs, Forall2 (fun img b => f img = Ok b) deck encs /\ decodable m encs deck.
Proof.
  intros Hf. induction 1 as [|img deck Hi Hd IH]; [exists []; cbn; auto|].
  destruct IH as [encs [H1 H2]]. destruct (Hf img Hi) as [b [Eb [Hl Hdec]]].
  exists (b :: encs). split; [constructor; auto|]. cbn [decodable]. auto.
Qed.

Lemma text_round_trip m deck : m = MText \/ m = MOctal ->
  Forall (fun img => printable_card img /\ text_safe img) deck -> deck <> [] ->
  exists bytes, saved MText deck bytes /\ loads m bytes deck.
Proof.
  intros Hm Hd Hne.
  destruct (decodable_each m (fun img => printable_card img /\ text_safe img) punch_text) with (deck := deck) as [encs [H1 H2]]; auto.
  - intros img [Hp Hs]. assert (Hmm : m <> MBin /\ m <> MEbcdic /\ m <> MAuto) by (destruct Hm as [->| ->]; repeat split; discriminate).
    destruct Hmm as [Hb [He Ha]].
    destruct (text_decodes m img [] Hb He Hp Hs) as [b [Eb [Hl _]]]. exists b. split; [exact Eb|]. split; [exact Hl|].
    intros more. destruct (text_decodes m img more Hb He Hp Hs) as [b' [Eb' [_ Hdec]]].
    replace b with b' by congruence. apply Hdec. congruence.
  - exists (concat encs). split; [apply save_deck_ok; exact H1|apply read_deck_ok; auto].
Qed.

Lemma octal_round_trip m deck : m = MText \/ m = MOctal ->
  Forall (fun img => is_card img /\ octal_safe img) deck -> deck <> [] ->
  exists bytes, saved MOctal deck bytes /\ loads m bytes deck.
Proof.
  intros Hm Hd Hne.
  destruct (decodable_each m (fun img => is_card img /\ octal_safe img) (fun img => Ok (punch_octal img))) with (deck := deck) as [encs [H1 H2]]; auto.
  - intros img [Hp Hs]. assert (Hmm : m <> MBin /\ m <> MEbcdic /\ m <> MAuto) by (destruct Hm as [->| ->]; repeat split; discriminate).
    destruct Hmm as [Hb [He Ha]].
    exists (punch_octal img). split; [reflexivity|].
    split; [apply (octal_decodes m img [] Hb He Hp Hs); congruence|].
    intros more. apply (octal_decodes m img more Hb He Hp Hs). congruence.
  - exists (concat encs). split; [apply save_deck_ok; exact H1|apply read_deck_ok; auto].
Qed.

(** AUTO: binary cards are ruled out as soon as the first byte of the card has a low nibble. *)
Lemma auto_scan_keeps : forall n d i t t' i', auto_scan n d i t = (t', i') -> Z.land t 15 <> 0 -> Z.land t' 15 <> 0.
Proof.
  induction n as [|n IH]; intros d i t t' i' H Ht; cbn [auto_scan] in H; [congruence|].
  destruct d as [|b r]; [congruence|]. apply IH in H; auto.
  rewrite Z.land_lor_distr_l. intros H0. apply Z.lor_eq_0_iff in H0. tauto.
Qed.

Lemma pick_text b r : Z.land b 15 <> 0 -> pick_mode MAuto (b :: r) = MText.
Proof.
  intros Hb. unfold pick_mode. change (auto_scan 80 (b :: r) 0 0) with (auto_scan 79 (skipn 1 r) (0 + 2) (Z.lor 0 b)).
  destruct (auto_scan 79 (skipn 1 r) (0 + 2) (Z.lor 0 b)) as [t i] eqn:E.
  apply auto_scan_keeps in E; [|rewrite Z.lor_0_l; exact Hb].
  destruct (Z.land t 15 =? 0) eqn:Et; [lia|reflexivity].
Qed.

(** Columns with an ASCII code are exactly those of the printable characters. *)
Lemma ascii_code_printable h a : 0 <= h < 4096 -> hol_to_ascii h = Ok a -> a <> 255 -> punch_of h a.
Proof.
  intros Hh Ha Hne. pose proof (sweep 4096 (fun h => match hol_to_ascii h with Ok a => (a =? 255) ||
     ((32 <=? a) && (a <? 127) && res_eqb (tab ascii_to_hol_029 a) h) | _ => false end)
    ltac:(vm_compute; reflexivity) h Hh) as H. cbn beta in H. rewrite Ha in H.
  replace (a =? 255) with false in H by lia. cbn [orb] in H. apply andb_true_iff in H. destruct H as [H1 H2].
  apply res_eqb_eq in H2. split; [lia|exact H2].
Qed.

Lemma auto_text img : printable_card img -> exists t, mapres hol_to_ascii img = Ok t /\ existsb (fun a => a =? 255) t = false.
Proof.
  intros [_ Hp]. destruct (text_of_card img Hp) as [t [_ [F M]]]. exists t. split; [exact M|].
  clear - F. induction F as [|h a cs t [[Ha _] _] F IH]; [reflexivity|]. cbn [existsb].
  replace (a =? 255) with false by lia. exact IH.
Qed.

Lemma auto_octal : forall img, Forall (fun h => 0 <= h < 4096) img -> ~ Forall (fun h => exists a, punch_of h a) img ->
  exists t, mapres hol_to_ascii img = Ok t /\ existsb (fun a => a =? 255) t = true.
Proof.
  induction 1 as [|h cols Hh Hc IH]; intros Hn; [exfalso; apply Hn; constructor|].
  assert (Hm : exists t, mapres hol_to_ascii cols = Ok t).
  { clear - Hc. induction Hc as [|h cols Hh Hc IH]; cbn [mapres]; [eauto|]. destruct IH as [t ->].
    unfold hol_to_ascii. destruct (tab_ok hol_to_ascii_table h) as [v ->].
    - replace (Z.of_nat (length hol_to_ascii_table)) with 4096 by (vm_compute; reflexivity). exact Hh.
    - cbn [bind]. eauto. }
  assert (Hv : exists a, hol_to_ascii h = Ok a).
  { apply tab_ok. replace (Z.of_nat (length hol_to_ascii_table)) with 4096 by (vm_compute; reflexivity). exact Hh. }
  destruct Hv as [a Ha]. cbn [mapres]. rewrite Ha. cbn [bind].
  destruct (Z.eq_dec a 255) as [->|Hne].
  - destruct Hm as [t ->]. cbn [bind]. eexists. split; [reflexivity|]. reflexivity.
  - destruct IH as [t [Et Hx]].
    + intros HF. apply Hn. constructor; [|exact HF]. exists a. apply ascii_code_printable; auto.
    + rewrite Et. cbn [bind]. eexists. split; [reflexivity|]. cbn [existsb]. rewrite Hx. apply orb_true_r.
Qed.

(** The first byte written for a card. *)
Definition first_low (img : card) : Prop :=
  forall b r, punch_bytes MAuto img = Ok (b :: r) -> Z.land b 15 <> 0.

Lemma starts_low_first img : auto_safe img -> ~ starts_low img -> first_low img.
Proof.
  intros Hs Hn b r E. unfold punch_bytes in E. destruct Hs as [[Hp Ht]|[Hi [Hx Ho]]].
  - destruct (auto_text img Hp) as [t [M X]]. rewrite M in E. cbn [bind] in E. rewrite X in E.
    destruct Hp as [[Hl _] Hp]. destruct (text_of_card img Hp) as [t' [Et [F _]]].
    unfold punch_text in E. rewrite Et in E. cbn [bind] in E.
    destruct img as [|h img]; [discriminate|]. inversion F as [|? a ? t'' Ha Hr]; subst.
    cbn [trim app] in E. injection E as <- _. intros H0. apply Hn. exists h, img, a. split; [reflexivity|]. split; [apply Ha|].
    change 15 with (Z.ones 4) in H0. rewrite Z.land_ones in H0 by lia. exact H0.
  - destruct (auto_octal img (proj2 Hi) Hx) as [t [M X]]. rewrite M in E. cbn [bind] in E. rewrite X in E.
    destruct (punch_octal_cases img Hi Ho) as [E'|[x [v [_ [E' _]]]]]; rewrite E' in E; injection E as <- _; discriminate.
Qed.

Lemma auto_card m img : m = MText \/ m = MOctal \/ m = MAuto -> auto_safe img -> (m = MAuto -> first_low img) ->
  exists b, punch_bytes MAuto img = Ok b /\ (0 < length b < 500)%nat /\ forall more, decodes m b img more.
Proof.
  intros Hm Hs Hlow.
  assert (Hmm : m <> MBin /\ m <> MEbcdic) by (destruct Hm as [->|[->| ->]]; split; discriminate).
  destruct Hmm as [Hb He]. destruct Hs as [[Hp Ht]|[Hi [Hn Ho]]].
  - destruct (auto_text img Hp) as [t [M X]].
    destruct (text_decodes m img [] Hb He Hp Ht) as [b [Eb [Hl _]]].
    assert (EP : punch_bytes MAuto img = Ok b).
    { unfold punch_bytes. rewrite M. cbn [bind]. rewrite X. exact Eb. }
    exists b. split; [exact EP|]. split; [exact Hl|]. intros more.
    destruct (text_decodes m img more Hb He Hp Ht) as [b' [Eb' [_ Hdec]]]. replace b with b' in * by congruence. clear Eb.
    apply Hdec. intros ->. destruct b' as [|x r]; [cbn in Hl; lia|]. cbn [app]. apply pick_text.
    apply (Hlow eq_refl x r). exact EP.
  - destruct (auto_octal img (proj2 Hi) Hn) as [t [M X]].
    assert (Hauto : forall more, m = MAuto -> pick_mode MAuto (punch_octal img ++ more) = MText).
    { intros more _. destruct (punch_octal_cases img Hi Ho) as [E|[x [v [_ [E _]]]]]; rewrite E; cbn [app];
        apply pick_text; discriminate. }
    exists (punch_octal img). split.
    { unfold punch_bytes. rewrite M. cbn [bind]. rewrite X. reflexivity. }
    split; [apply (octal_decodes m img [] Hb He Hi Ho (Hauto []))|].
    intros more. apply (octal_decodes m img more Hb He Hi Ho (Hauto more)).
Qed.

Lemma auto_round_trip m deck : m = MText \/ m = MOctal \/ m = MAuto ->
  Forall (fun img => auto_safe img /\ (m = MAuto -> first_low img)) deck -> deck <> [] ->
  exists bytes, saved MAuto deck bytes /\ loads m bytes deck.
Proof.
  intros Hm Hd Hne.
  destruct (decodable_each m (fun img => auto_safe img /\ (m = MAuto -> first_low img)) (punch_bytes MAuto)) with (deck := deck) as [encs [H1 H2]]; auto.
  - intros img [Hs Hl]. apply auto_card; auto.
  - exists (concat encs). split; [apply save_deck_ok; exact H1|apply read_deck_ok; auto].
Qed.

(** ** Loading does not depend on what the hopper holds *)
Definition rel (q : list card) (c0 c : ctx) : Prop :=
  ctx_ok c0 /\ ctx_ok c /\ c_mode c0 = c_mode c /\ unread c = q ++ unread c0.

Lemma deck_loop_frame q junk : forall fuel k c0 c d rest eof sz, rel q c0 c ->
  match deck_loop fuel junk k c0 d rest eof sz with
  | Ok c0' => exists c', deck_loop fuel junk k c d rest eof sz = Ok c' /\ rel q c0' c'
       /\ c_mode c' = c_mode c /\ c_file c' = c_file c /\ c_file c0' = c_file c0
  | UB => deck_loop fuel junk k c d rest eof sz = UB
  | NoFuel => deck_loop fuel junk k c d rest eof sz = NoFuel
  end.
Proof.
  induction fuel as [|fuel IH]; intros k c0 c d rest eof sz Hr; [reflexivity|].
  cbn [deck_loop]. set (win := if _ : bool then _ else _). destruct win as [[d1 rest1] eof1].
  destruct Hr as [Hk0 [Hk [Hm Hu]]]. rewrite Hm.
  destruct (parse_card (c_mode c) d1 (junk k)) as [[img osz]| |]; cbn [bind]; auto.
  destruct (append_ok c0 img Hk0) as [c0' [E0 [A1 [A2 [A3 [A4 _]]]]]].
  destruct (append_ok c img Hk) as [c' [E [B1 [B2 [B3 [B4 _]]]]]].
  rewrite E0, E. cbn [bind].
  assert (Hr' : rel q c0' c').
  { repeat split; try apply A1; try apply B1; try congruence. rewrite B2, A2, Hu, app_assoc. reflexivity. }
  destruct (skipn _ d1) as [|b r]; [exists c'; repeat split; try congruence; apply Hr'|].
  specialize (IH (S k) c0' c' (b :: r) rest1 eof1 (match osz with Some s => s | None => sz end) Hr').
  destruct (deck_loop fuel junk (S k) c0' _ _ _ _) as [c0''| |]; auto.
  destruct IH as [c'' [E2 [R2 [M2 [F2 F3]]]]]. exists c''. repeat split; try congruence; apply R2.
Qed.

Lemma read_deck_frame fuel junk c bytes : ctx_ok c ->
  match read_deck fuel junk (empty_ctx (c_mode c)) bytes with
  | Ok c0 => exists c', read_deck fuel junk c bytes = Ok c' /\ ctx_ok c' /\ c_mode c' = c_mode c /\ c_file c' = None /\
               unread c' = unread c ++ unread c0
  | UB => read_deck fuel junk c bytes = UB
  | NoFuel => read_deck fuel junk c bytes = NoFuel
  end.
Proof.
  intros Hok. unfold read_deck.
  destruct (compact_ok (Ctx (c_mode c) (c_images c) (c_cards c) (c_pos c) None)) as [c1 [E1 [K1 [K2 [K3 [K4 _]]]]]].
  { exact Hok. }
  rewrite E1. cbn [c_mode c_images c_cards c_pos c_file] in *.
  change (compact (Ctx (c_mode (empty_ctx (c_mode c))) (c_images (empty_ctx (c_mode c))) (c_cards (empty_ctx (c_mode c))) (c_pos (empty_ctx (c_mode c))) None))
    with (Ok (empty_ctx (c_mode c))). cbn [bind].
  pose proof (deck_loop_frame (unread c) (fun k i => match k, i with O, O => 0 | _, _ => junk k i end) fuel 0
    (empty_ctx (c_mode c)) c1 [] bytes false 0) as H.
  destruct (deck_loop fuel _ 0 (empty_ctx (c_mode c)) _ _ _ _) as [c0| |].
  - destruct H as [c' [E [R [M [F _]]]]].
    { repeat split; try apply K1; cbn; try lia; try congruence.
      rewrite app_nil_r. exact K2. }
    exists c'. destruct R as [_ [R1 [_ R2]]]. repeat split; try congruence; apply R1.
  - apply H. repeat split; try apply K1; cbn; try lia; try congruence. rewrite app_nil_r. exact K2.
  - apply H. repeat split; try apply K1; cbn; try lia; try congruence. rewrite app_nil_r. exact K2.
Qed.

(** ** Histories *)
Lemma mapres_hol img : match mapres hol_to_ebcdic img with
  | Ok _ => forallb (fun h => (0 <=? h) && (h <? 4096)) img = true
  | UB => forallb (fun h => (0 <=? h) && (h <? 4096)) img = false
  | NoFuel => False end.
Proof.
  induction img as [|h img IH]; [reflexivity|]. cbn [mapres forallb].
  assert (Hlen : Z.of_nat (length hol_to_ebcdic_table) = 4096) by (vm_compute; reflexivity).
  destruct ((0 <=? h) && (h <? 4096)) eqn:E.
  - unfold hol_to_ebcdic at 1. destruct (tab_ok hol_to_ebcdic_table h) as [v ->]; [lia|]. cbn [bind andb].
    destruct (mapres hol_to_ebcdic img); cbn [bind]; auto.
  - assert (Hu : hol_to_ebcdic h = UB).
    { unfold hol_to_ebcdic. destruct (tab hol_to_ebcdic_table h) as [v| |] eqn:T; auto.
      - apply tab_range in T. lia.
      - unfold tab in T. destruct (h <? 0); [discriminate|]. destruct (nth_error _ _); discriminate. }
    rewrite Hu. reflexivity.
Qed.

Lemma nth_unread c img r : ctx_ok c -> unread c = img :: r ->
  nth_error (c_images c) (c_pos c) = Some img /\ (c_pos c < c_cards c)%nat.
Proof.
  intros Hok Hu. pose proof (unread_length c Hok) as Hlen. rewrite Hu in Hlen. cbn in Hlen. unfold ctx_ok in Hok.
  split; [|lia].
  assert (Hx : nth_error (unread c) 0 = Some img) by (rewrite Hu; reflexivity).
  unfold unread in Hx. rewrite nth_error_firstn, nth_error_skipn, Nat.add_0_r in Hx by lia. exact Hx.
Qed.

Lemma unread_next c img r : ctx_ok c -> unread c = img :: r ->
  ctx_ok (Ctx (c_mode c) (c_images c) (c_cards c) (S (c_pos c)) (c_file c)) /\
  unread (Ctx (c_mode c) (c_images c) (c_cards c) (S (c_pos c)) (c_file c)) = r.
Proof.
  intros Hok Hu. destruct (nth_unread c img r Hok Hu) as [Hn Hlt]. unfold ctx_ok in *. cbn. split; [lia|].
  unfold unread in *. cbn [c_mode c_images c_cards c_pos c_file].
  replace (c_cards c - c_pos c)%nat with (S (c_cards c - S (c_pos c))) in Hu by lia.
  assert (Hs : skipn (c_pos c) (c_images c) = img :: skipn (S (c_pos c)) (c_images c)).
  { clear - Hn. revert Hn. generalize (c_pos c). generalize (c_images c).
    induction l as [|a l IH]; intros [|n] Hn; try discriminate; cbn in *; [congruence|]. apply IH in Hn. exact Hn. }
  rewrite Hs in Hu. cbn [firstn] in Hu. injection Hu as Hu. exact Hu.
Qed.

Lemma blank_loop_ok : forall n c, ctx_ok c -> exists c', blank_loop n c = Ok c' /\ ctx_ok c' /\
  unread c' = unread c ++ repeat blank n /\ c_mode c' = c_mode c /\ c_file c' = c_file c.
Proof.
  induction n as [|n IH]; intros c Hok; cbn [blank_loop].
  - exists c. cbn [repeat]. rewrite app_nil_r. repeat split; auto; apply Hok.
  - destruct (append_ok c blank Hok) as [c1 [E [A1 [A2 [A3 [A4 _]]]]]]. rewrite E. cbn [bind].
    destruct (IH c1 A1) as [c' [E' [B1 [B2 [B3 B4]]]]]. exists c'. split; [exact E'|]. split; [exact B1|].
    rewrite B2, A2, <- app_assoc. cbn [repeat app]. split; [reflexivity|]. split; congruence.
Qed.

Lemma cstep_queue c o : ctx_ok c -> c_file c = None ->
  match sstep (c_mode c) (unread c) o with
  | Ok (q, out) => exists c', cstep c o = Ok (c', out) /\ ctx_ok c' /\ c_file c' = None /\ c_mode c' = c_mode c /\ unread c' = q
  | UB => cstep c o = UB
  | NoFuel => cstep c o = NoFuel
  end.
Proof.
  intros Hok Hf. destruct o as [|fuel junk bytes|n|img]; cbn [sstep cstep].
  - destruct (unread c) as [|img r] eqn:Hu.
    + rewrite (read_card_empty c Hok Hu). cbn [bind]. exists c. repeat split; auto; apply Hok.
    + destruct (nth_unread c img r Hok Hu) as [Hn Hlt]. destruct (unread_next c img r Hok Hu) as [U1 U2].
      unfold read_card. replace (Nat.leb (c_cards c) (c_pos c)) with false by (symmetry; apply Nat.leb_gt; lia).
      rewrite Hn. pose proof (mapres_hol img) as Hm. destruct (mapres hol_to_ebcdic img) as [t| |]; [| |contradiction]; rewrite Hm; cbn [bind]; auto.
      eexists. split; [reflexivity|]. repeat split; auto; apply U1.
  - pose proof (read_deck_frame fuel junk c bytes Hok) as H.
    destruct (read_deck fuel junk (empty_ctx (c_mode c)) bytes) as [c0| |]; cbn [bind].
    + destruct H as [c' [E [H1 [H2 [H3 H4]]]]]. rewrite E. cbn [bind]. exists c'. repeat split; auto; apply H1.
    + rewrite H. reflexivity.
    + rewrite H. reflexivity.
  - unfold blank_deck. destruct (compact_ok c Hok) as [c1 [E1 [K1 [K2 [K3 [K4 _]]]]]]. rewrite E1. cbn [bind].
    destruct (blank_loop_ok (Z.to_nat n) c1 K1) as [c' [E [B1 [B2 [B3 B4]]]]]. rewrite E. cbn [bind].
    exists c'. repeat split; try congruence; apply B1.
  - unfold stack_card. destruct (append_ok c img Hok) as [c1 [E [A1 [A2 [A3 [A4 _]]]]]]. rewrite E. cbn [bind].
    rewrite A4, Hf. cbn [bind]. exists c1. repeat split; try congruence; apply A1.
Qed.

Lemma crun_queue : forall os c, ctx_ok c -> c_file c = None ->
  match srun (c_mode c) (unread c) os with
  | Ok (q, outs) => exists c', crun c os = Ok (c', outs) /\ ctx_ok c' /\ c_file c' = None /\ unread c' = q
  | UB => crun c os = UB
  | NoFuel => crun c os = NoFuel
  end.
Proof.
  induction os as [|o os IH]; intros c Hok Hf; cbn [srun crun].
  - exists c. repeat split; auto; apply Hok.
  - pose proof (cstep_queue c o Hok Hf) as H. destruct (sstep (c_mode c) (unread c) o) as [[q out]| |]; cbn [bind].
    + destruct H as [c' [E [H1 [H2 [H3 H4]]]]]. rewrite E. cbn [bind]. specialize (IH c' H1 H2). rewrite H3, H4 in IH.
      destruct (srun (c_mode c) q os) as [[q' outs]| |]; cbn [bind].
      * destruct IH as [c'' [E' [I1 [I2 I3]]]]. rewrite E'. cbn [bind]. exists c''. repeat split; auto; apply I1.
      * rewrite IH. reflexivity.
      * rewrite IH. reflexivity.
    + rewrite H. reflexivity.
    + rewrite H. reflexivity.
Qed.

(** ** Termination and safety of loading *)
Lemma eol_loop_ge : forall r i, (i <= eol_loop r i <= i + length r)%nat.
Proof.
  induction r as [|c r IH]; intros i; cbn [eol_loop length]; [lia|].
  destruct ((c =? 10) || (c =? 13)); [lia|]. specialize (IH (S i)). lia.
Qed.

Lemma rd_ok d jk i : Z.of_nat i < buf_size -> exists b, rd d jk i = Ok b.
Proof. intros H. unfold rd. destruct (nth_error d i); [eauto|]. replace (Z.of_nat i <? buf_size) with true by lia. eauto. Qed.

(** end_card stays in the buffer and moves on. *)
Lemma eol_stop : forall r i c r', skipn (eol_loop r i - i) r = c :: r' -> (c =? 10) || (c =? 13) = true.
Proof.
  induction r as [|x r IH]; intros i c r' H; cbn [eol_loop] in H.
  - rewrite skipn_nil in H. discriminate.
  - destruct ((x =? 10) || (x =? 13)) eqn:E.
    + rewrite Nat.sub_diag in H. cbn in H. congruence.
    + pose proof (eol_loop_ge r (S i)). replace (eol_loop r (S i) - i)%nat with (S (eol_loop r (S i) - S i)) in H by lia.
      cbn [skipn] in H. eapply IH; eauto.
Qed.

Lemma end_card_ok d jk i : (i <= length d)%nat -> Z.of_nat (length d) < buf_size -> jk (Z.to_nat (buf_size - 1)) <> 13 ->
  exists n, end_card d jk i = Ok n /\ (i <= n)%nat /\
    (forall c, nth_error d i = Some c -> c = 10 \/ c = 13 -> (i < n)%nat).
Proof.
  intros Hi Hl Hj. unfold end_card. pose proof (eol_loop_ge (skipn i d) i) as Hg. rewrite skipn_length in Hg.
  set (i1 := eol_loop (skipn i d) i) in *.
  destruct (rd_ok d jk i1) as [b1 E1]; [lia|]. rewrite E1. cbn [bind].
  assert (Hi2 : exists b2, rd d jk (if b1 =? 13 then S i1 else i1) = Ok b2).
  { apply rd_ok. destruct (b1 =? 13) eqn:E; [|lia].
    destruct (Nat.eq_dec i1 (Z.to_nat (buf_size - 1))) as [H|H]; [|unfold buf_size in *; lia].
    exfalso. apply Hj. unfold rd in E1. rewrite (proj2 (nth_error_None d i1)) in E1 by (unfold buf_size in *; lia).
    replace (Z.of_nat i1 <? buf_size) with true in E1 by (unfold buf_size in *; lia). rewrite <- H. injection E1 as ->. lia. }
  destruct Hi2 as [b2 E2]. rewrite E2. cbn [bind]. eexists. split; [reflexivity|]. split.
  - destruct (b1 =? 13), (b2 =? 10); lia.
  - intros c Hc Hcc.
    assert (Hx : i1 = i).
    { unfold i1. destruct (skipn i d) as [|x r] eqn:Hs; [reflexivity|].
      assert (Hxn : nth_error d i = Some x).
      { replace i with (i + 0)%nat by lia. rewrite <- nth_error_skipn, Hs. reflexivity. }
      cbn [eol_loop]. replace ((x =? 10) || (x =? 13)) with true; [reflexivity|]. replace c with x in Hcc by congruence. lia. }
    unfold rd in E1. rewrite Hx, Hc in E1. injection E1 as <-.
    destruct Hcc as [->| ->]; cbn [Z.eqb Pos.eqb] in *.
    + unfold rd in E2. cbn in E2. rewrite Hx, Hc in E2. injection E2 as <-. cbn. lia.
    + destruct (b2 =? 10); lia.
Qed.

Lemma tilde_loop_ge : forall r col i n, tilde_loop r col i = Some n -> (i <= n <= i + length r)%nat.
Proof.
  induction r as [|c r IH]; intros col i n H; cbn [tilde_loop] in H.
  - injection H as <-. cbn. lia.
  - cbn [length]. destruct (80 <=? col); [injection H as <-; lia|].
    destruct ((c =? 10) || (c =? 0) || (c =? 13)); [injection H as <-; lia|].
    destruct (c =? 32); [apply IH in H; lia|]. destruct (c =? 9); [apply IH in H; lia|discriminate].
Qed.

Lemma raw_loop_ge : forall r img col j i, (i <= snd (raw_loop r img col j i) <= i + length r)%nat.
Proof.
  induction r as [|c r IH]; intros img col j i; cbn [raw_loop length].
  - cbn. lia.
  - destruct (80 <=? col); [cbn; lia|]. destruct ((48 <=? c) && (c <=? 55)).
    + destruct (j + 1 =? 4); [specialize (IH (setcol img col (Z.lor (Z.shiftl (getcol img col) 3) (c - 48))) (col + 1) 0 (S i)) |
        specialize (IH (setcol img col (Z.lor (Z.shiftl (getcol img col) 3) (c - 48))) col (j + 1) (S i))]; lia.
    + destruct ((c =? 10) || (c =? 13)); [|cbn; lia].
      specialize (IH (setcol img 0 (Z.lor (getcol img 0) 4095)) col j (S i)). lia.
Qed.

Lemma text_loop_total : forall r img col i, Forall (fun b => 0 <= b < 128) r ->
  exists img' n, text_loop r img col i = Ok (img', n) /\ (i <= n <= i + length r)%nat /\
    (col < 80 -> r <> [] -> (exists r', r = 10 :: r') \/ (i < n)%nat).
Proof.
  induction r as [|c r IH]; intros img col i Hb; cbn [text_loop].
  - exists img, i. cbn. repeat split; auto; try lia. congruence.
  - inversion Hb as [|? ? Hc Hr]; subst. cbn [length].
    destruct (80 <=? col) eqn:Ecol; [exists img, i; repeat split; auto; lia|].
    destruct ((c =? 0) || (c =? 13)).
    { destruct (IH img col (S i) Hr) as [img' [n [E [Hn _]]]]. exists img', n. split; [exact E|]. split; [lia|]. intros; right; lia. }
    destruct (c =? 9).
    { destruct (IH img (tab_stop col) (S i) Hr) as [img' [n [E [Hn _]]]]. exists img', n. split; [exact E|]. split; [lia|]. intros; right; lia. }
    destruct (c =? 10) eqn:E10.
    { exists img, i. repeat split; auto; try lia. intros _ _. left. exists r. f_equal. lia. }
    destruct (tab_ok ascii_to_hol_029 c) as [h Hh].
    { replace (Z.of_nat (length ascii_to_hol_029)) with 128 by (vm_compute; reflexivity). lia. }
    rewrite Hh. cbn [bind].
    match goal with |- context [text_loop r ?a ?b ?k] => destruct (IH a b k Hr) as [img' [n [E [Hn _]]]] end.
    exists img', n. split; [exact E|]. split; [lia|]. intros; right; lia.
Qed.

Lemma parse_text_total d jk : Forall (fun b => 0 <= b < 128) d -> Z.of_nat (length d) < buf_size ->
  jk (Z.to_nat (buf_size - 1)) <> 13 -> (forall i, Z.of_nat i < 4 -> d = [] -> jk i <> 126) ->
  exists img n, parse_text d jk = Ok (img, n) /\ (d <> [] -> (0 < n)%nat).
Proof.
  intros Hb Hl Hj Hempty. unfold parse_text.
  assert (Hrd : forall i, (i < 4)%nat -> exists b, rd d jk i = Ok b) by (intros i Hi; apply rd_ok; unfold buf_size; lia).
  destruct (Hrd 0%nat) as [p0 E0]; [lia|]. rewrite E0. cbn [bind].
  assert (H0 : p0 = 126 -> d <> []).
  { intros -> ->. unfold rd in E0. cbn in E0. injection E0 as E0. apply (Hempty 0%nat) in E0; [exact E0|lia|reflexivity]. }
  assert (Hcmp : forall s, exists r, cmpcard d jk s = Ok r /\ (r = true -> p0 = 126)).
  { intros [[s0 s1] s2]. unfold cmpcard. rewrite E0. cbn [bind]. destruct (p0 =? 126) eqn:E; cbn [negb]; [|exists false; split; [reflexivity|discriminate]].
    destruct (Hrd 1%nat) as [p1 E1]; [lia|]. rewrite E1. cbn [bind]. destruct (negb (tolower p1 =? s0)); [exists false; split; [reflexivity|discriminate]|].
    destruct (Hrd 2%nat) as [p2 E2]; [lia|]. rewrite E2. cbn [bind]. destruct (negb (tolower p2 =? s1)); [exists false; split; [reflexivity|discriminate]|].
    destruct (Hrd 3%nat) as [p3 E3]; [lia|]. rewrite E3. cbn [bind]. exists (tolower p3 =? s2). split; [reflexivity|]. intros; lia. }
  destruct (if p0 =? 126 then tilde_loop (skipn 1 d) 1 1 else None) as [i|] eqn:Esp.
  - destruct (p0 =? 126) eqn:Ep; [|discriminate]. apply tilde_loop_ge in Esp. rewrite skipn_length in Esp.
    destruct d as [|x d]; [exfalso; apply H0; [lia|reflexivity]|]. cbn [length] in *.
    destruct (end_card_ok (x :: d) jk i) as [n [En [Hn _]]]; cbn [length]; auto; try lia.
    rewrite En. cbn [bind]. exists blank, n. split; [reflexivity|]. intros; lia.
  - (* the junk behind a short line can complete a keyword: the index then lies behind the data *)
    assert (Hend4 : forall i, (4 <= i)%nat -> Z.of_nat i < 400 \/ (i <= length d)%nat -> exists n, end_card d jk i = Ok n /\ (4 <= n)%nat).
    { intros i Hi Hor. destruct (Nat.le_gt_cases i (length d)) as [H|H].
      - destruct (end_card_ok d jk i) as [n [En [Hn _]]]; auto. exists n. split; [exact En|lia].
      - unfold end_card. rewrite skipn_all2 by lia. cbn [eol_loop].
        destruct (rd_ok d jk i) as [b1 E1]; [unfold buf_size; lia|]. rewrite E1. cbn [bind].
        destruct (rd_ok d jk (if b1 =? 13 then S i else i)) as [b2 E2]; [unfold buf_size; destruct (b1 =? 13); lia|]. rewrite E2. cbn [bind].
        eexists. split; [reflexivity|]. destruct (b1 =? 13), (b2 =? 10); lia. }
    destruct (Hcmp kw_raw) as [r1 [-> Hr1]]. cbn [bind]. destruct r1.
    { destruct (raw_loop (skipn 4 d) blank 0 0 4) as [img i] eqn:Er.
      pose proof (raw_loop_ge (skipn 4 d) blank 0 0 4) as Hg. rewrite Er in Hg. cbn [snd] in Hg. rewrite skipn_length in Hg.
      destruct (Hend4 i) as [n [En Hn]]; try lia. rewrite En. cbn [bind]. exists img, n. split; [reflexivity|]. lia. }
    destruct (Hend4 4%nat) as [n4 [En4 Hn4]]; try lia.
    destruct (Hcmp kw_eor) as [r2 [-> Hr2]]. cbn [bind]. destruct r2.
    { rewrite En4. cbn [bind]. exists (setcol blank 0 7), n4. split; [reflexivity|]. lia. }
    destruct (Hcmp kw_eof) as [r3 [-> Hr3]]. cbn [bind]. destruct r3.
    { rewrite En4. cbn [bind]. exists (setcol blank 0 13), n4. split; [reflexivity|]. lia. }
    destruct (Hcmp kw_eoi) as [r4 [-> Hr4]]. cbn [bind]. destruct r4.
    { rewrite En4. cbn [bind]. exists (setcol blank 0 15), n4. split; [reflexivity|]. lia. }
    destruct (text_loop_total d blank 0 0 Hb) as [img [i [Et [Hi Hpos]]]]. rewrite Et. cbn [bind].
    destruct (end_card_ok d jk i) as [n [En [Hn Hn2]]]; auto; try lia. rewrite En. cbn [bind].
    exists img, n. split; [reflexivity|]. intros Hne.
    destruct (Hpos ltac:(lia) Hne) as [[r' ->]|H]; [|lia].
    cbn [text_loop] in Et. cbn in Et. injection Et as _ <-. specialize (Hn2 10 eq_refl (or_introl eq_refl)). lia.
Qed.

Lemma ebc_loop_total : forall n d img i, Forall (fun b => 0 <= b < 256) d ->
  exists img' m, ebc_loop n d img i = Ok (img', m) /\ (i <= m)%nat /\ (n <> O -> d <> [] -> (i < m)%nat).
Proof.
  induction n as [|n IH]; intros d img i Hb; cbn [ebc_loop].
  - exists img, i. repeat split; auto. congruence.
  - destruct d as [|b r]; [exists img, i; repeat split; auto; congruence|].
    inversion Hb as [|? ? Hc Hr]; subst. unfold ebcdic_to_hol. destruct (tab_ok ebcdic_to_hol_table b) as [h ->].
    { replace (Z.of_nat (length ebcdic_to_hol_table)) with 256 by (vm_compute; reflexivity). lia. }
    cbn [bind]. destruct (IH r (upd img i h) (S i) Hr) as [img' [m [E [H1 _]]]]. exists img', m. repeat split; auto; lia.
Qed.

Lemma deck_loop_total (P : Z -> Prop) m junk :
  (forall k d, Forall P d -> Z.of_nat (length d) < buf_size -> (d = [] -> k = O) ->
     exists img n, parse_card m d (junk k) = Ok (img, Some n) /\ (d <> [] -> (0 < n)%nat)) ->
  forall fuel k c d rest eof sz, ctx_ok c -> c_mode c = m -> Forall P d -> Forall P rest ->
  Z.of_nat (length d) < buf_size -> (d = [] -> k = O) -> (length d + length rest < fuel)%nat ->
  exists c', deck_loop fuel junk k c d rest eof sz = Ok c' /\ ctx_ok c'.
Proof.
  intros Hp. induction fuel as [|fuel IH]; intros k c d rest eof sz Hok Hm Hd Hr Hl Hk Hf; [lia|].
  cbn [deck_loop]. set (win := if _ : bool then _ else _).
  assert (Hwin : exists d1 rest1 eof1, win = (d1, rest1, eof1) /\ Forall P d1 /\ Forall P rest1 /\
      Z.of_nat (length d1) < buf_size /\ (d1 = [] -> k = O) /\ (length d1 + length rest1 = length d + length rest)%nat).
  { unfold win. destruct ((Z.of_nat (length d) <? 500) && negb eof) eqn:E.
    - exists (d ++ firstn (Z.to_nat 8192) rest), (skipn (Z.to_nat 8192) rest), (Z.of_nat (length rest) <? 8192).
      split; [reflexivity|]. rewrite <- (firstn_skipn (Z.to_nat 8192) rest) in Hr. apply Forall_app in Hr. destruct Hr as [Hr1 Hr2].
      split; [apply Forall_app; auto|]. split; [exact Hr2|]. rewrite app_length, firstn_length, skipn_length. unfold buf_size.
      split; [lia|]. split; [|lia]. intros H. apply app_eq_nil in H. apply Hk. apply H.
    - exists d, rest, eof. repeat split; auto. }
  destruct Hwin as [d1 [rest1 [eof1 [-> [W1 [W2 [W3 [W4 W5]]]]]]]].
  rewrite Hm. destruct (Hp k d1 W1 W3 W4) as [img [n [E Hn]]]. rewrite E. cbn [bind].
  destruct (append_ok c img Hok) as [c2 [E2 [A1 [A2 [A3 _]]]]]. rewrite E2. cbn [bind].
  destruct (skipn n d1) as [|b r] eqn:Es; [eauto|].
  assert (Hlen : length (b :: r) = (length d1 - n)%nat) by (rewrite <- Es; apply skipn_length).
  assert (Hd1 : d1 <> []) by (intros ->; rewrite skipn_nil in Es; discriminate). specialize (Hn Hd1).
  assert (Hfd : Forall P (b :: r)). { rewrite <- (firstn_skipn n d1) in W1. apply Forall_app in W1. rewrite Es in W1. apply W1. }
  cbn [length] in Hlen. apply IH; auto; try congruence; cbn [length]; try lia.
Qed.

(** Column binary: a file of at least one card. *)
Lemma bin_loop_some : forall n d, (2 * n <= length d)%nat -> exists img t, bin_loop n d = Some (img, t).
Proof.
  induction n as [|n IH]; intros d Hl; cbn [bin_loop]; [eauto|].
  destruct d as [|a [|b r]]; cbn [length] in Hl; try lia.
  destruct (IH r) as [img [t ->]]; [lia|]. eauto.
Qed.

Lemma deck_loop_bin junk : forall fuel k c d rest eof sz, ctx_ok c -> c_mode c = MBin ->
  (eof = true -> rest = []) -> (sz = 160%nat \/ (160 <= length d + length rest)%nat) -> (length d + length rest < fuel)%nat ->
  exists c', deck_loop fuel junk k c d rest eof sz = Ok c' /\ ctx_ok c'.
Proof.
  induction fuel as [|fuel IH]; intros k c d rest eof sz Hok Hm He Hsz Hf; [lia|].
  cbn [deck_loop]. set (win := if _ : bool then _ else _).
  assert (Hwin : exists d1 rest1 eof1, win = (d1, rest1, eof1) /\ (eof1 = true -> rest1 = []) /\
      (length d1 + length rest1 = length d + length rest)%nat /\ (rest1 = [] \/ (500 <= length d1)%nat)).
  { unfold win. destruct (Z.of_nat (length d) <? 500) eqn:E; cbn [andb]; [destruct eof; cbn [negb]|].
    - exists d, rest, true. repeat split; auto.
    - exists (d ++ firstn (Z.to_nat 8192) rest), (skipn (Z.to_nat 8192) rest), (Z.of_nat (length rest) <? 8192).
      split; [reflexivity|]. rewrite app_length, firstn_length, skipn_length.
      assert (Hs : (Z.of_nat (length rest) <? 8192) = true -> skipn (Z.to_nat 8192) rest = []).
      { intros Hr. apply skipn_all2. lia. }
      split; [exact Hs|]. split; [lia|]. destruct (Z.of_nat (length rest) <? 8192) eqn:Hr; [left; auto|right; lia].
    - exists d, rest, eof. repeat split; auto. right. lia. }
  destruct Hwin as [d1 [rest1 [eof1 [-> [W1 [W2 W3]]]]]].
  rewrite Hm. unfold parse_card. cbn [pick_mode].
  assert (Hnext : forall c2, ctx_ok c2 -> c_mode c2 = MBin ->
     exists c', (match skipn 160 d1 with [] => Ok c2 | _ => deck_loop fuel junk (S k) c2 (skipn 160 d1) rest1 eof1 160 end) = Ok c' /\ ctx_ok c').
  { intros c2 Hc2 Hm2. destruct (skipn 160 d1) as [|b r] eqn:Es; [eauto|].
    assert (Hlen : length (b :: r) = (length d1 - 160)%nat) by (rewrite <- Es; apply skipn_length).
    cbn [length] in Hlen. apply IH; auto; cbn [length]; lia. }
  destruct (Z.of_nat (length d1) <? 160) eqn:E.
  - cbn [bind]. destruct (append_ok c (upd blank 0 4095) Hok) as [c2 [E2 [A1 [_ [A3 _]]]]]. rewrite E2. cbn [bind].
    destruct Hsz as [->|Hsz].
    + destruct (Hnext c2 A1) as [c' Hc']; [congruence|]. exists c'.
      destruct (skipn 160 d1); exact Hc'.
    + exfalso. destruct W3 as [->|W3]; cbn [length] in *; lia.
  - destruct (bin_loop_some 80 d1) as [img [t Eb]]; [lia|]. rewrite Eb. cbn [bind].
    set (im := if negb _ then _ else _). destruct (append_ok c im Hok) as [c2 [E2 [A1 [_ [A3 _]]]]]. rewrite E2. cbn [bind].
    destruct (Hnext c2 A1) as [c' Hc']; [congruence|]. exists c'. destruct (skipn 160 d1); exact Hc'.
Qed.

Lemma parse_text_nil jk : jk 0%nat = 0 -> parse_text [] jk = Ok (blank, 0%nat).
Proof.
  intros H. assert (Hr : rd [] jk 0 = Ok 0) by (unfold rd; cbn [nth_error]; change (Z.of_nat 0 <? buf_size) with true; cbv iota; congruence).
  assert (Hc : forall s, cmpcard [] jk s = Ok false) by (intros [[s0 s1] s2]; unfold cmpcard; rewrite Hr; reflexivity).
  assert (He : end_card [] jk 0 = Ok 0%nat) by (unfold end_card; cbn [skipn eol_loop]; rewrite Hr; cbn [bind Z.eqb]; rewrite Hr; reflexivity).
  unfold parse_text. rewrite Hr. cbn [bind Z.eqb]. rewrite !Hc. cbn [bind text_loop]. rewrite He. reflexivity.
Qed.

Lemma read_deck_total m bytes c junk fuel : file_ok m bytes -> junk_ok junk -> ctx_ok c -> c_mode c = m -> (length bytes < fuel)%nat ->
  exists c', read_deck fuel junk c bytes = Ok c' /\ ctx_ok c'.
Proof.
  intros Hb Hj Hok Hm Hf. unfold read_deck.
  destruct (compact_ok (Ctx (c_mode c) (c_images c) (c_cards c) (c_pos c) None)) as [c1 [E1 [K1 [K2 [K3 _]]]]]; [exact Hok|].
  rewrite E1. cbn [bind]. cbn [c_mode] in K3.
  set (jk := fun k i => match k, i with O, O => 0 | _, _ => junk k i end).
  assert (Hjk : forall k, jk k (Z.to_nat (buf_size - 1)) <> 13).
  { intros k. unfold jk. destruct (Z.to_nat (buf_size - 1)) eqn:E; [discriminate|]. rewrite <- E. destruct k; apply Hj. }
  destruct m; cbn [file_ok] in Hb; try contradiction.
  - apply (deck_loop_total (fun b => 0 <= b < 128) MText); auto; try congruence; try reflexivity; try (cbn [length]; lia).
    intros k d Hd Hl Hk. unfold parse_card. cbn [pick_mode].
    destruct d as [|x d].
    + assert (k = O) by auto. subst k. rewrite parse_text_nil by reflexivity. cbn [bind]. exists blank, 0%nat.
      split; [reflexivity|congruence].
    + destruct (parse_text_total (x :: d) (jk k)) as [img [n [E Hn]]]; auto; try apply Hjk; try (intros; discriminate).
      rewrite E. cbn [bind]. eauto.
  - apply (deck_loop_total (fun b => 0 <= b < 256) MEbcdic); auto; try congruence; try reflexivity; try (cbn [length]; lia).
    intros k d Hd Hl Hk. unfold parse_card. cbn [pick_mode].
    destruct (ebc_loop_total 80 d (if Z.of_nat (length d) <? 80 then upd blank 0 4095 else blank) 0 Hd) as [img [n [E [_ Hn]]]].
    rewrite E. cbn [bind]. exists img, n. split; [reflexivity|]. intros Hne. specialize (Hn ltac:(discriminate) Hne). lia.
  - destruct Hb as [->|Hb].
    + destruct fuel as [|fuel]; [lia|]. cbn [deck_loop length]. change ((Z.of_nat 0 <? 500) && negb false) with true. cbv iota.
      rewrite skipn_nil, firstn_nil. cbn [app]. rewrite K3, Hm. unfold parse_card. cbn [pick_mode length].
      change (Z.of_nat 0 <? 160) with true. cbv iota. cbn [bind].
      destruct (append_ok c1 (upd blank 0 4095) K1) as [c2 [E2 [A1 _]]]. rewrite E2. cbn [bind skipn]. eauto.
    + apply deck_loop_bin; auto; try congruence; try discriminate.
  - apply (deck_loop_total (fun b => 0 <= b < 128) MOctal); auto; try congruence; try reflexivity; try (cbn [length]; lia).
    intros k d Hd Hl Hk. unfold parse_card. cbn [pick_mode].
    destruct d as [|x d].
    + assert (k = O) by auto. subst k. rewrite parse_text_nil by reflexivity. cbn [bind]. exists blank, 0%nat.
      split; [reflexivity|congruence].
    + destruct (parse_text_total (x :: d) (jk k)) as [img [n [E Hn]]]; auto; try apply Hjk; try (intros; discriminate).
      rewrite E. cbn [bind]. eauto.
Qed.

(** A short binary file is read for ever. *)
Lemma deck_loop_diverges junk : forall fuel k c d eof, ctx_ok c -> c_mode c = MBin -> (0 < length d < 160)%nat ->
  deck_loop fuel junk k c d [] eof 0 = NoFuel.
Proof.
  induction fuel as [|fuel IH]; intros k c d eof Hok Hm Hd; [reflexivity|]. cbn [deck_loop].
  set (win := if _ : bool then _ else _).
  assert (Hwin : exists eof', win = (d, [], eof')).
  { unfold win. destruct ((Z.of_nat (length d) <? 500) && negb eof); [|eauto]. rewrite skipn_nil, firstn_nil, app_nil_r. eauto. }
  destruct Hwin as [eof' ->]. rewrite Hm. unfold parse_card. cbn [pick_mode].
  replace (Z.of_nat (length d) <? 160) with true by lia. cbn [bind].
  destruct (append_ok c (upd blank 0 4095) Hok) as [c2 [E2 [A1 [_ [A3 _]]]]]. rewrite E2. cbn [bind skipn].
  destruct d as [|b r]; [cbn in Hd; lia|]. apply IH; auto. congruence.
Qed.

Lemma read_deck_diverges c junk bytes : ctx_ok c -> c_mode c = MBin -> (0 < length bytes < 160)%nat ->
  forall fuel, read_deck fuel junk c bytes = NoFuel.
Proof.
  intros Hok Hm Hl fuel. unfold read_deck.
  destruct (compact_ok (Ctx (c_mode c) (c_images c) (c_cards c) (c_pos c) None)) as [c1 [E1 [K1 [K2 [K3 _]]]]]; [exact Hok|].
  rewrite E1. cbn [bind]. cbn [c_mode] in K3.
  destruct fuel as [|fuel]; [reflexivity|]. cbn [deck_loop length].
  change ((Z.of_nat 0 <? 500) && negb false) with true. cbv iota. rewrite skipn_all2 by lia. rewrite firstn_all2 by lia. cbn [app].
  rewrite K3, Hm. unfold parse_card. cbn [pick_mode]. replace (Z.of_nat (length bytes) <? 160) with true by lia. cbn [bind].
  destruct (append_ok c1 (upd blank 0 4095) K1) as [c2 [E2 [A1 [_ [A3 _]]]]]. rewrite E2. cbn [bind skipn].
  destruct bytes as [|b r] eqn:Eb; [cbn in Hl; lia|]. rewrite <- Eb in *. apply deck_loop_diverges; auto; congruence.
Qed.

(** ** stack_card with a punch file open: cards go to the file as they are stacked *)
Lemma stack_file_ok c img f b : ctx_ok c -> unread c = [] -> c_file c = Some f -> punch_bytes (c_mode c) img = Ok b ->
  exists c', stack_card c img = Ok c' /\ ctx_ok c' /\ unread c' = [] /\ c_file c' = Some (f ++ b) /\ c_mode c' = c_mode c /\
    stack_size c' = stack_size c + 1.
Proof.
  intros Hok Hu Hf Hp. unfold stack_card. destruct (append_ok c img Hok) as [c1 [E [A1 [A2 [A3 [A4 [A5 A6]]]]]]]. rewrite E. cbn [bind].
  rewrite A4, Hf. unfold flush_cards. rewrite Hu in A2. cbn [app] in A2.
  pose proof (unread_length c1 A1) as Hl. rewrite A2 in Hl. cbn [length] in Hl.
  destruct (flush_loop_ok (c_cards c1 - c_pos c1) c1 [img] [b] f A1 A2) as [c' [E' [F1 [F2 [F3 [F4 F5]]]]]]; auto.
  - constructor; [congruence|constructor].
  - congruence.
  - exists c'. split; [exact E'|]. cbn [concat] in F1. rewrite app_nil_r in F1.
    unfold ctx_ok in *. rewrite F3, F4, F5. split; [lia|]. split; [|split; [exact F1|split; [congruence|unfold stack_size; rewrite F4; lia]]].
    unfold unread. rewrite F4, F5, F3. replace (c_cards c1 - (c_pos c1 + (c_cards c1 - c_pos c1)))%nat with 0%nat by lia. reflexivity.
Qed.

Lemma stack_all_ok : forall deck bs c f, ctx_ok c -> unread c = [] -> c_file c = Some f ->
  Forall2 (fun img b => punch_bytes (c_mode c) img = Ok b) deck bs ->
  exists c', stack_all c deck = Ok c' /\ ctx_ok c' /\ unread c' = [] /\ c_file c' = Some (f ++ concat bs) /\
    stack_size c' = stack_size c + Z.of_nat (length deck).
Proof.
  induction deck as [|img deck IH]; intros bs c f Hok Hu Hf HF; inversion HF as [|? b ? bs' Hb Hbs]; subst; cbn [stack_all concat].
  - exists c. rewrite app_nil_r. cbn [length]. repeat split; auto; try apply Hok. lia.
  - destruct (stack_file_ok c img f b Hok Hu Hf Hb) as [c1 [E [S1 [S2 [S3 [S4 S5]]]]]]. rewrite E. cbn [bind].
    destruct (IH bs' c1 (f ++ b) S1 S2 S3) as [c' [E' [T1 [T2 [T3 T4]]]]]; [rewrite S4; exact Hbs|].
    exists c'. rewrite <- app_assoc in T3. split; [exact E'|]. split; [exact T1|]. split; [exact T2|]. split; [exact T3|].
    cbn [length]. lia.
Qed.

Lemma punch_bytes_total m img : is_card img -> exists b, punch_bytes m img = Ok b.
Proof.
  intros [_ Hc].
  assert (He : exists t, mapres hol_to_ebcdic img = Ok t).
  { pose proof (mapres_hol img) as H. destruct (mapres hol_to_ebcdic img); eauto; [exfalso|contradiction].
    assert (Hx : forallb (fun h => (0 <=? h) && (h <? 4096)) img = true).
    { apply forallb_forall. intros h Hh. rewrite Forall_forall in Hc. specialize (Hc h Hh). lia. }
    congruence. }
  assert (Ha : exists t, mapres hol_to_ascii img = Ok t).
  { clear He. induction Hc as [|h cols Hh Hc IH]; cbn [mapres]; [eauto|]. destruct IH as [t ->].
    unfold hol_to_ascii. destruct (tab_ok hol_to_ascii_table h) as [v ->].
    - replace (Z.of_nat (length hol_to_ascii_table)) with 4096 by (vm_compute; reflexivity). exact Hh.
    - cbn [bind]. eauto. }
  assert (Ht : exists b, punch_text img = Ok b).
  { unfold punch_text. assert (Hp : exists t, mapres punch_char img = Ok t).
    { clear - Ha. destruct Ha as [t Ha]. revert t Ha. induction img as [|h img IH]; intros t Ha; cbn [mapres] in *; [eauto|].
      destruct (hol_to_ascii h) as [a| |] eqn:E; try discriminate. cbn [bind] in Ha. unfold punch_char at 1. rewrite E. cbn [bind].
      destruct (mapres hol_to_ascii img) as [t'| |]; try discriminate. destruct (IH t' eq_refl) as [t2 ->]. cbn [bind]. eauto. }
    destruct Hp as [t ->]. cbn [bind]. eauto. }
  destruct m; cbn [punch_bytes]; eauto.
  - destruct Ha as [t ->]. cbn [bind]. destruct (existsb _ t); eauto.
  - destruct He as [t He]. unfold punch_ebcdic. clear - He. revert t He. induction img as [|h img IH]; intros t He; cbn [mapres] in *; [eauto|].
    destruct (hol_to_ebcdic h) as [a| |]; try discriminate. cbn [bind] in *.
    destruct (mapres hol_to_ebcdic img) as [t'| |]; try discriminate. destruct (IH t' eq_refl) as [t2 ->]. cbn [bind]. eauto.
Qed.

Lemma save_unread c : ctx_ok c -> Forall is_card (unread c) ->
  exists bs c', Forall2 (fun img b => punch_bytes (c_mode c) img = Ok b) (unread c) bs /\
   save_deck c = Ok c' /\ snd (close_deck c') = Some (concat bs) /\ hopper_size c' = 0.
Proof.
  intros Hok Hd.
  assert (H : exists bs, Forall2 (fun img b => punch_bytes (c_mode c) img = Ok b) (unread c) bs).
  { induction Hd as [|img d Hi Hd IH]; [exists []; constructor|]. destruct IH as [bs Hb].
    destruct (punch_bytes_total (c_mode c) img Hi) as [b Eb]. exists (b :: bs). constructor; auto. }
  destruct H as [bs Hb]. destruct (save_deck_ok (c_mode c) (unread c) bs Hb c Hok eq_refl eq_refl) as [c' [E [Ec Eh]]].
  exists bs, c'. rewrite Ec. auto.
Qed.
