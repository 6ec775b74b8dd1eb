From Verif Require Import Base.Bits Card.Tables Card.Model Card.Spec.

Global Opaque hol_to_ebcdic_table hol_to_ascii_table.

(** ** Lists *)
Lemma upd_mid {A} (l1 : list A) x l2 y : upd (l1 ++ x :: l2) (length l1) y = l1 ++ y :: l2.
Proof. induction l1 as [|a l1 IH]; cbn; [reflexivity|]. rewrite IH. reflexivity. Qed.

Lemma app_split {A} (a b c d : list A) : a ++ b = c ++ d -> (length c <= length a)%nat ->
  exists e, a = c ++ e /\ d = e ++ b.
Proof.
  revert a; induction c as [|x c IH]; intros a H Hl; [exists a; auto|].
  destruct a as [|y a]; cbn in *; [lia|]. injection H as -> H.
  destruct (IH a H ltac:(lia)) as [e [-> ->]]. exists e. auto.
Qed.

Lemma skipn_app_len {A} (a b : list A) : skipn (length a) (a ++ b) = b.
Proof. rewrite skipn_app, skipn_all, Nat.sub_diag. reflexivity. Qed.

Lemma Forall2_length {A B} (R : A -> B -> Prop) l1 l2 : Forall2 R l1 l2 -> length l1 = length l2.
Proof. induction 1; cbn; congruence. Qed.

(** ** Hopper *)
Lemma unread_length c : ctx_ok c -> length (unread c) = (c_cards c - c_pos c)%nat.
Proof. intros H. unfold ctx_ok in H. unfold unread. rewrite firstn_length, skipn_length. lia. Qed.

Lemma upd_firstn {A} (l : list A) i x : (i < length l)%nat -> firstn (S i) (upd l i x) = firstn i l ++ [x].
Proof.
  revert i; induction l as [|a l IH]; intros [|i] H; cbn in *; try lia; [reflexivity|].
  rewrite <- IH by lia. reflexivity.
Qed.

Lemma firstn_skipn_window {A} (l : list A) p n : firstn n (skipn p l) = skipn p (firstn (p + n) l).
Proof. rewrite firstn_skipn_comm. reflexivity. Qed.

Lemma put_ok c img : ctx_ok c -> (c_cards c < length (c_images c))%nat ->
  exists c', put c img = Ok c' /\ ctx_ok c' /\ unread c' = unread c ++ [img] /\
    c_mode c' = c_mode c /\ c_file c' = c_file c /\ c_pos c' = c_pos c /\ c_cards c' = S (c_cards c) /\
    length (c_images c') = length (c_images c).
Proof.
  intros Hok Hlt. unfold put. replace (Nat.ltb (c_cards c) (length (c_images c))) with true
    by (symmetry; apply Nat.ltb_lt; exact Hlt).
  unfold ctx_ok in *. eexists. split; [reflexivity|]. cbn [c_mode c_images c_cards c_pos c_file]. rewrite upd_length.
  split; [lia|]. split; [|repeat split].
  unfold unread. cbn [c_mode c_images c_cards c_pos c_file].
  rewrite !firstn_skipn_window.
  replace (c_pos c + (S (c_cards c) - c_pos c))%nat with (S (c_cards c)) by lia.
  replace (c_pos c + (c_cards c - c_pos c))%nat with (c_cards c) by lia.
  rewrite upd_firstn by lia.
  rewrite skipn_app. replace (c_pos c - length (firstn (c_cards c) (c_images c)))%nat with 0%nat
    by (rewrite firstn_length; lia). reflexivity.
Qed.

Lemma grow_ok c : ctx_ok c ->
  ctx_ok (grow c) /\ unread (grow c) = unread c /\ (c_cards (grow c) < length (c_images (grow c)))%nat /\
  c_mode (grow c) = c_mode c /\ c_file (grow c) = c_file c /\ c_pos (grow c) = c_pos c /\ c_cards (grow c) = c_cards c.
Proof.
  unfold ctx_ok. intros H. unfold grow. destruct (Nat.leb_spec (length (c_images c)) (c_cards c)) as [Hl|Hl].
  - cbn [c_mode c_images c_cards c_pos c_file].
    assert (Hlen : c_cards c = length (c_images c)) by lia.
    assert (E : firstn (c_cards c) (c_images c ++ repeat blank deck_size) = c_images c).
    { rewrite Hlen, firstn_app, Nat.sub_diag, firstn_all. cbn [firstn]. apply app_nil_r. }
    rewrite E, app_length, repeat_length. unfold deck_size in *.
    repeat split; try lia.
    unfold unread. cbn [c_mode c_images c_cards c_pos c_file].
    rewrite skipn_app. rewrite firstn_app.
    replace (c_cards c - c_pos c - length (skipn (c_pos c) (c_images c)))%nat with 0%nat by (rewrite skipn_length; lia).
    cbn [firstn]. apply app_nil_r.
  - repeat split; auto; lia.
Qed.

Lemma append_ok c img : ctx_ok c ->
  exists c', put (grow c) img = Ok c' /\ ctx_ok c' /\ unread c' = unread c ++ [img] /\
    c_mode c' = c_mode c /\ c_file c' = c_file c /\ c_pos c' = c_pos c /\ c_cards c' = S (c_cards c).
Proof.
  intros H. destruct (grow_ok c H) as [G1 [G2 [G3 [G4 [G5 [G6 G7]]]]]].
  destruct (put_ok (grow c) img G1 G3) as [c' [E [P1 [P2 [P3 [P4 [P5 [P6 _]]]]]]]].
  exists c'. repeat split; try congruence; apply P1.
Qed.

Lemma move_down_ok : forall n imgs i pos, (i < pos)%nat -> (pos + n <= length imgs)%nat ->
  exists imgs', move_down n imgs i pos = Ok imgs' /\ length imgs' = length imgs /\
    (forall k, (k < n)%nat -> nth_error imgs' (i + k) = nth_error imgs (pos + k)) /\
    (forall k, (k < i)%nat -> nth_error imgs' k = nth_error imgs k).
Proof.
  induction n as [|n IH]; intros imgs i pos Hi Hl; cbn [move_down].
  - exists imgs. repeat split; auto. intros; lia.
  - destruct (nth_error imgs pos) as [x|] eqn:Hx; [|apply nth_error_None in Hx; lia].
    destruct (IH (upd imgs i x) (S i) (S pos)) as [imgs' [E [Hlen [H1 H2]]]]; [lia|rewrite upd_length; lia|].
    exists imgs'. rewrite E. rewrite upd_length in Hlen. repeat split; auto.
    + intros [|k] Hk.
      * rewrite !Nat.add_0_r. rewrite H2 by lia. rewrite upd_same by lia. congruence.
      * replace (i + S k)%nat with (S i + k)%nat by lia. rewrite H1 by lia.
        replace (S pos + k)%nat with (pos + S k)%nat by lia. apply upd_other. lia.
    + intros k Hk. rewrite H2 by lia. apply upd_other. lia.
Qed.

Lemma nth_error_firstn {A} (l : list A) n k : (k < n)%nat -> nth_error (firstn n l) k = nth_error l k.
Proof. revert l k; induction n as [|n IH]; intros [|a l] [|k] H; cbn; auto; try lia. apply IH. lia. Qed.

Lemma nth_error_skipn {A} (l : list A) n k : nth_error (skipn n l) k = nth_error l (n + k).
Proof. revert l; induction n as [|n IH]; intros [|a l]; cbn; auto. destruct k; reflexivity. Qed.

Lemma nth_error_ext {A} (l1 l2 : list A) : (forall k, nth_error l1 k = nth_error l2 k) -> l1 = l2.
Proof.
  revert l2; induction l1 as [|a l1 IH]; intros [|b l2] H; auto.
  - specialize (H 0%nat). discriminate.
  - specialize (H 0%nat). discriminate.
  - pose proof (H 0%nat) as H0. cbn in H0. injection H0 as ->. f_equal. apply IH. intros k. apply (H (S k)).
Qed.

Lemma compact_ok c : ctx_ok c ->
  exists c', compact c = Ok c' /\ ctx_ok c' /\ unread c' = unread c /\ c_mode c' = c_mode c /\ c_file c' = c_file c /\ c_pos c' = 0%nat.
Proof.
  intros Hok. pose proof Hok as H. unfold ctx_ok in H. unfold compact.
  destruct (Nat.ltb_spec 0 (c_pos c)) as [Hp|Hp].
  - destruct (move_down_ok (c_cards c - c_pos c) (c_images c) 0 (c_pos c) Hp) as [imgs [E [Hl [H1 _]]]]; [lia|].
    rewrite E. cbn [bind]. eexists. split; [reflexivity|]. unfold ctx_ok. cbn [c_mode c_images c_cards c_pos c_file].
    repeat split; try lia. unfold unread. cbn [c_mode c_images c_cards c_pos c_file].
    rewrite Nat.sub_0_r. cbn [skipn]. apply nth_error_ext. intros k.
    destruct (Nat.lt_ge_cases k (c_cards c - c_pos c)) as [Hk|Hk].
    + rewrite !nth_error_firstn by lia. rewrite nth_error_skipn. apply (H1 k Hk).
    + rewrite !(proj2 (nth_error_None _ _)); auto; rewrite firstn_length; rewrite ?skipn_length; lia.
  - exists c. repeat split; auto; lia.
Qed.

Lemma read_card_ok c img r : ctx_ok c -> unread c = img :: r -> is_card img ->
  exists c', read_card c = Ok (c', Some img) /\ ctx_ok c' /\ unread c' = r /\ c_mode c' = c_mode c /\ c_file c' = c_file c.
Proof.
  intros Hok Hu [Hl Hc]. pose proof (unread_length c Hok) as Hlen. rewrite Hu in Hlen. cbn in Hlen.
  unfold ctx_ok in Hok. unfold read_card. replace (Nat.leb (c_cards c) (c_pos c)) with false
    by (symmetry; apply Nat.leb_gt; lia).
  assert (Hn : nth_error (c_images c) (c_pos c) = Some img).
  { assert (Hx : nth_error (unread c) 0 = Some img) by (rewrite Hu; reflexivity).
    unfold unread in Hx. rewrite nth_error_firstn, nth_error_skipn, Nat.add_0_r in Hx by lia. exact Hx. }
  rewrite Hn.
  assert (Hm : exists t, mapres hol_to_ebcdic img = Ok t).
  { clear Hl Hu Hn. induction img as [|h img IH]; cbn [mapres]; [eauto|].
    inversion Hc as [|? ? Hh Hr]; subst. destruct (IH Hr) as [t Ht].
    unfold hol_to_ebcdic at 1. destruct (tab_ok hol_to_ebcdic_table h) as [v Hv].
    - replace (Z.of_nat (length hol_to_ebcdic_table)) with 4096 by (vm_compute; reflexivity). exact Hh.
    - rewrite Hv. cbn [bind]. rewrite Ht. cbn [bind]. eauto. }
  destruct Hm as [t Ht]. rewrite Ht. cbn [bind]. eexists. split; [reflexivity|].
  unfold ctx_ok. cbn [c_mode c_images c_cards c_pos c_file]. repeat split; try lia.
  unfold unread in *. cbn [c_mode c_images c_cards c_pos c_file].
  replace (c_cards c - c_pos c)%nat with (S (c_cards c - S (c_pos c))) in Hu by lia.
  assert (Hs : skipn (c_pos c) (c_images c) = img :: skipn (S (c_pos c)) (c_images c)).
  { clear - Hn. revert Hn. generalize (c_pos c). generalize (c_images c).
    induction l as [|a l IH]; intros [|n] Hn; try discriminate; cbn in *; [congruence|]. apply IH in Hn. exact Hn. }
  rewrite Hs in Hu. cbn [firstn] in Hu. injection Hu as Hu. exact Hu.
Qed.

Lemma read_card_empty c : ctx_ok c -> unread c = [] -> read_card c = Ok (c, None).
Proof.
  intros Hok Hu. pose proof (unread_length c Hok) as Hl. rewrite Hu in Hl. cbn in Hl. unfold ctx_ok in Hok.
  unfold read_card. replace (Nat.leb (c_cards c) (c_pos c)) with true by (symmetry; apply Nat.leb_le; lia). reflexivity.
Qed.

Lemma hopper_size_unread c : ctx_ok c -> hopper_size c = Z.of_nat (length (unread c)).
Proof. intros H. rewrite unread_length by exact H. unfold ctx_ok in H. unfold hopper_size. lia. Qed.

(** ** Saving *)
Lemma flush_loop_ok n : forall c deck bs f, ctx_ok c -> unread c = deck -> length deck = n ->
  Forall2 (fun img b => punch_bytes (c_mode c) img = Ok b) deck bs -> c_file c = Some f ->
  exists c', flush_loop n c = Ok c' /\ c_file c' = Some (f ++ concat bs) /\ c_mode c' = c_mode c /\
    c_images c' = c_images c /\ c_cards c' = c_cards c /\ c_pos c' = (c_pos c + n)%nat.
Proof.
  induction n as [|n IH]; intros c deck bs f Hok Hu Hl Hp Hf.
  - destruct deck; [|discriminate]. inversion Hp; subst. exists c. cbn [flush_loop concat].
    rewrite app_nil_r, Nat.add_0_r. repeat split; auto.
  - destruct deck as [|img deck]; [discriminate|]. inversion Hp as [|? b ? bs' Hb Hbs]; subst.
    pose proof (unread_length c Hok) as Hlen. rewrite Hu in Hlen. cbn in Hlen. pose proof Hok as Hok'. unfold ctx_ok in Hok'.
    assert (Hn : nth_error (c_images c) (c_pos c) = Some img).
    { assert (Hx : nth_error (unread c) 0 = Some img) by (rewrite Hu; reflexivity).
      unfold unread in Hx. rewrite nth_error_firstn, nth_error_skipn, Nat.add_0_r in Hx by lia. exact Hx. }
    cbn [flush_loop]. unfold punch_slot. rewrite Hn, Hb. cbn [bind]. rewrite Hf. cbn [bind].
    set (c1 := Ctx _ _ _ _ _).
    assert (Hok1 : ctx_ok c1) by (unfold ctx_ok, c1; cbn; lia).
    assert (Hu1 : unread c1 = deck).
    { unfold unread in *. unfold c1. cbn [c_mode c_images c_cards c_pos c_file].
      replace (c_cards c - c_pos c)%nat with (S (c_cards c - S (c_pos c))) in Hu by lia.
      assert (Hs : skipn (c_pos c) (c_images c) = img :: skipn (S (c_pos c)) (c_images c)).
      { clear - Hn. revert Hn. generalize (c_pos c). generalize (c_images c).
        induction l as [|a l IHl]; intros [|m] Hn; try discriminate; cbn in *; [congruence|]. apply IHl in Hn. exact Hn. }
      rewrite Hs in Hu. cbn [firstn] in Hu. injection Hu as Hu. exact Hu. }
    destruct (IH c1 deck bs' (f ++ b) Hok1 Hu1) as [c' [E [F1 [F2 [F3 [F4 F5]]]]]]; [simpl in Hl; lia|exact Hbs|reflexivity|].
    exists c'. split; [exact E|]. rewrite F1, <- app_assoc. cbn [concat]. split; [reflexivity|].
    unfold c1 in *. cbn [c_mode c_images c_cards c_pos c_file] in *. repeat split; auto. lia.
Qed.

Lemma save_deck_ok m deck bs :
  Forall2 (fun img b => punch_bytes m img = Ok b) deck bs -> saved m deck (concat bs).
Proof.
  intros Hp c Hok Hm Hu. unfold save_deck, flush_cards. cbn [c_mode c_images c_cards c_pos c_file].
  set (c1 := Ctx _ _ _ _ _).
  assert (Hl : length deck = (c_cards c - c_pos c)%nat) by (rewrite <- Hu; apply unread_length; exact Hok).
  destruct (flush_loop_ok (c_cards c - c_pos c) c1 deck bs [] Hok Hu Hl) as [c' [E [F1 [F2 [F3 [F4 F5]]]]]].
  - unfold c1. cbn [c_mode]. rewrite Hm. exact Hp.
  - reflexivity.
  - exists c'. split; [exact E|]. unfold close_deck. rewrite F1, F2. unfold c1. cbn [c_mode app]. rewrite Hm.
    split; [reflexivity|]. unfold hopper_size. rewrite F4, F5. unfold c1. cbn [c_cards c_pos]. unfold ctx_ok in Hok. lia.
Qed.

(** ** Loading *)

(** [enc] in front of anything is read as the card [img] and uses up just [enc]. *)
Definition decodes (m : mode) (enc : list Z) (img : card) (more : list Z) : Prop :=
  forall jk, parse_card m (enc ++ more) jk = Ok (img, Some (length enc)).

(** Every card of the file is decoded whatever window of the file follows it. *)
Fixpoint decodable (m : mode) (encs : list (list Z)) (deck : list card) : Prop :=
  match encs, deck with
  | [], [] => True
  | e :: encs', c :: deck' =>
    (0 < length e < 500)%nat /\
    (forall more tail, concat encs' = more ++ tail -> (tail = [] \/ (500 <= length e + length more)%nat) -> decodes m e c more) /\
    decodable m encs' deck'
  | _, _ => False
  end.


Lemma deck_loop_ok m junk : forall deck encs k c d rest eof sz fuel,
  decodable m encs deck -> deck <> [] -> ctx_ok c -> c_mode c = m ->
  d ++ rest = concat encs -> (eof = true -> rest = []) -> (length deck <= fuel)%nat ->
  exists c', deck_loop fuel junk k c d rest eof sz = Ok c' /\ ctx_ok c' /\ c_mode c' = m /\ unread c' = unread c ++ deck.
Proof.
  induction deck as [|img deck IH]; intros encs k c d rest eof sz fuel Hd Hne Hok Hm Hcat Heof Hf; [congruence|].
  destruct encs as [|e encs]; [contradiction|]. cbn [decodable] in Hd. destruct Hd as [Hlen [Hdec Hd]].
  destruct fuel as [|fuel]; [simpl in Hf; lia|]. cbn [deck_loop].
  set (win := if _ : bool then _ else _).
  assert (Hwin : exists d1 rest1 eof1, win = (d1, rest1, eof1) /\ d1 ++ rest1 = concat (e :: encs) /\
      (eof1 = true -> rest1 = []) /\ (rest1 = [] \/ (500 <= length d1)%nat)).
  { unfold win. destruct (Z.of_nat (length d) <? 500) eqn:Hl; cbn [andb].
    - destruct eof; cbn [negb].
      + exists d, rest, true. rewrite Heof in * by reflexivity. repeat split; auto.
      + exists (d ++ firstn (Z.to_nat 8192) rest), (skipn (Z.to_nat 8192) rest), (Z.of_nat (length rest) <? 8192).
        split; [reflexivity|]. split; [rewrite <- app_assoc, firstn_skipn; exact Hcat|].
        assert (Hs : (Z.of_nat (length rest) <? 8192) = true -> skipn (Z.to_nat 8192) rest = []).
        { intros Hr. apply skipn_all2. lia. }
        split; [exact Hs|]. destruct (Z.of_nat (length rest) <? 8192) eqn:Hr; [left; auto|].
        right. rewrite app_length, firstn_length. lia.
    - exists d, rest, eof. repeat split; auto. right. lia. }
  destruct Hwin as [d1 [rest1 [eof1 [-> [Hcat1 [Heof1 Hbig]]]]]].
  cbn [concat] in Hcat1.
  destruct (app_split d1 rest1 e (concat encs) Hcat1) as [more [-> Htail]].
  { destruct Hbig as [->|Hb]; [|lia]. rewrite app_nil_r in Hcat1. rewrite Hcat1, app_length. lia. }
  rewrite Hm.
  assert (Hp : parse_card m (e ++ more) (junk k) = Ok (img, Some (length e))).
  { apply (Hdec more rest1 Htail). destruct Hbig as [Hb|Hb]; [left; exact Hb|right; rewrite app_length in Hb; lia]. }
  rewrite Hp. cbn [bind].
  destruct (append_ok c img Hok) as [c2 [E2 [A1 [A2 [A3 _]]]]]. rewrite E2. cbn [bind].
  rewrite skipn_app_len.
  destruct more as [|b more].
  - (* end of the buffer: end of the file *)
    assert (Hr1 : rest1 = []). { destruct Hbig as [Hb|Hb]; [exact Hb|rewrite app_nil_r in Hb; lia]. }
    subst rest1. cbn [app] in Htail.
    assert (Hdk : deck = []).
    { destruct encs as [|e2 encs]; [destruct deck; [reflexivity|contradiction]|].
      exfalso. destruct deck as [|i2 deck]; [exact Hd|]. cbn [decodable] in Hd. destruct Hd as [Hl2 _].
      cbn [concat] in Htail. destruct e2; [cbn in Hl2; lia|discriminate]. }
    subst deck. exists c2. repeat split; try congruence; apply A1.
  - destruct (IH encs (S k) c2 (b :: more) rest1 eof1 (length e) fuel) as [c' [E [I1 [I2 I3]]]]; auto.
    + intros ->. destruct encs; [discriminate|exact Hd].
    + congruence.
    + simpl in Hf. lia.
    + exists c'. split; [exact E|]. repeat split; try congruence; try apply I1.
      rewrite I3, A2, <- app_assoc. reflexivity.
Qed.

Lemma decodable_length m : forall deck encs, decodable m encs deck -> (length deck <= length (concat encs))%nat.
Proof.
  induction deck as [|img deck IH]; intros encs Hd; [cbn; lia|].
  destruct encs as [|e encs]; [contradiction|]. cbn [decodable] in Hd. destruct Hd as [Hl [_ Hd]].
  specialize (IH encs Hd). cbn [concat]. rewrite app_length. cbn [length]. lia.
Qed.

Lemma read_deck_ok m encs deck : decodable m encs deck -> deck <> [] -> loads m (concat encs) deck.
Proof.
  intros Hd Hne c junk fuel Hok Hm Hf. unfold read_deck.
  destruct (compact_ok (Ctx (c_mode c) (c_images c) (c_cards c) (c_pos c) None)) as [c1 [E1 [K1 [K2 [K3 _]]]]].
  { exact Hok. }
  rewrite E1. cbn [bind].
  pose proof (decodable_length m deck encs Hd) as Hlen.
  destruct (deck_loop_ok m (fun k i => match k, i with O, O => 0 | _, _ => junk k i end)
     deck encs 0 c1 [] (concat encs) false 0 fuel) as [c' [E [I1 [I2 I3]]]]; auto; try discriminate.
  - cbn in K3. congruence.
  - lia.
  - exists c'. split; [exact E|]. repeat split; try congruence; try apply I1. rewrite I3, K2. reflexivity.
Qed.

(** ** Binary *)
Lemma bin_col h : 0 <= h < 4096 ->
  Z.lor (Z.land (Z.shiftr (Z.shiftl (Z.land h 15) 4) 4) 15) (Z.shiftl (Z.land (Z.shiftr (Z.land h 4080) 4) 255) 4) = h /\
  Z.land (Z.shiftl (Z.land h 15) 4) 15 = 0.
Proof.
  intros Hh. pose proof (sweep 4096 (fun h =>
    (Z.lor (Z.land (Z.shiftr (Z.shiftl (Z.land h 15) 4) 4) 15) (Z.shiftl (Z.land (Z.shiftr (Z.land h 4080) 4) 255) 4) =? h) &&
    (Z.land (Z.shiftl (Z.land h 15) 4) 15 =? 0)) ltac:(vm_compute; reflexivity) h Hh) as H.
  cbn beta in H. apply andb_true_iff in H. destruct H as [H1 H2]. apply Z.eqb_eq in H1, H2. auto.
Qed.

Lemma bin_loop_ok : forall img more, Forall (fun h => 0 <= h < 4096) img ->
  exists t, bin_loop (length img) (punch_bin img ++ more) = Some (img, t) /\ Z.land t 15 = 0.
Proof.
  induction img as [|h img IH]; intros more Hc.
  - exists 0. auto.
  - inversion Hc as [|? ? Hh Hr]; subst. destruct (IH more Hr) as [t [E Ht]].
    change (punch_bin (h :: img)) with ([Z.shiftl (Z.land h 15) 4; Z.shiftr (Z.land h 4080) 4] ++ punch_bin img).
    cbn [app length bin_loop]. rewrite E. destruct (bin_col h Hh) as [H1 H2]. rewrite H1.
    eexists. split; [reflexivity|]. rewrite Z.land_lor_distr_l, H2, Ht. reflexivity.
Qed.

Lemma punch_bin_length img : length (punch_bin img) = (2 * length img)%nat.
Proof. induction img as [|h img IH]; [reflexivity|]. unfold punch_bin in *. cbn [flat_map length app]. rewrite IH. lia. Qed.

Lemma bin_decodes img more : is_card img -> decodes MBin (punch_bin img) img more.
Proof.
  intros [Hl Hc] jk. unfold parse_card. cbn [pick_mode].
  rewrite app_length, punch_bin_length, Hl.
  replace (Z.of_nat (2 * 80 + length more) <? 160) with false by lia.
  destruct (bin_loop_ok img more Hc) as [t [E Ht]]. rewrite Hl in E. rewrite E, Ht. reflexivity.
Qed.

Lemma auto_scan_bin : forall img more i t, Forall (fun h => 0 <= h < 4096) img -> Z.land t 15 = 0 ->
  exists t', auto_scan (length img) (punch_bin img ++ more) i t = (t', i + 2 * Z.of_nat (length img)) /\ Z.land t' 15 = 0.
Proof.
  induction img as [|h img IH]; intros more i t Hc Ht.
  - exists t. cbn. split; [f_equal; lia|exact Ht].
  - inversion Hc as [|? ? Hh Hr]; subst.
    change (punch_bin (h :: img)) with ([Z.shiftl (Z.land h 15) 4; Z.shiftr (Z.land h 4080) 4] ++ punch_bin img).
    cbn [app length auto_scan skipn].
    destruct (IH more (i + 2) (Z.lor t (Z.shiftl (Z.land h 15) 4)) Hr) as [t' [E Ht']].
    { rewrite Z.land_lor_distr_l, Ht. destruct (bin_col h Hh) as [_ ->]. reflexivity. }
    exists t'. rewrite E. split; [f_equal; lia|exact Ht'].
Qed.

Lemma bin_decodes_auto img more : is_card img -> decodes MAuto (punch_bin img) img more.
Proof.
  intros Hi jk. pose proof (bin_decodes img more Hi jk) as H. destruct Hi as [Hl Hc].
  unfold parse_card in *. replace (pick_mode MAuto (punch_bin img ++ more)) with MBin; [exact H|].
  unfold pick_mode. destruct (auto_scan_bin img more 0 0 Hc eq_refl) as [t' [E Ht']].
  rewrite Hl in E. rewrite E, Ht'. reflexivity.
Qed.

Lemma decodable_bin m deck : m = MBin \/ m = MAuto -> Forall is_card deck -> decodable m (map punch_bin deck) deck.
Proof.
  intros Hm. induction 1 as [|img deck Hi Hd IH]; cbn [map decodable]; auto. split; [|split]; auto.
  - rewrite punch_bin_length. destruct Hi as [-> _]. lia.
  - intros more tail _ _. destruct Hm as [->| ->]; [apply bin_decodes|apply bin_decodes_auto]; exact Hi.
Qed.

(** ** EBCDIC *)
Lemma hol_table_inverse h : 0 <= h < 4096 ->
  exists e, hol_to_ebcdic h = Ok e /\ (e = 256 \/ (0 <= e < 256 /\ ebcdic_to_hol e = Ok h)).
Proof.
  intros Hh. pose proof (sweep 4096 (fun h => match hol_to_ebcdic h with Ok e => (e =? 256) ||
     ((0 <=? e) && (e <? 256) && res_eqb (ebcdic_to_hol e) h) | _ => false end) ltac:(vm_compute; reflexivity) h Hh) as H.
  cbn beta in H. destruct (hol_to_ebcdic h) as [e| |]; try discriminate. exists e. split; [reflexivity|].
  apply orb_true_iff in H. destruct H as [H|H]; [left; lia|right].
  apply andb_true_iff in H. destruct H as [H1 H2]. apply res_eqb_eq in H2. split; [lia|exact H2].
Qed.

Lemma ebcdic_inverse e : 0 <= e < 256 -> exists h, 0 <= h < 4096 /\ ebcdic_to_hol e = Ok h /\ hol_to_ebcdic h = Ok e.
Proof.
  intros He. pose proof (sweep 256 (fun e => match ebcdic_to_hol e with Ok h => (0 <=? h) && (h <? 4096) && res_eqb (hol_to_ebcdic h) e | _ => false end)
    ltac:(vm_compute; reflexivity) e He) as H. cbn beta in H.
  destruct (ebcdic_to_hol e) as [h| |]; try discriminate. exists h.
  apply andb_true_iff in H. destruct H as [H1 H2]. apply res_eqb_eq in H2. split; [lia|]. auto.
Qed.

Lemma ebc_col h : (exists e, 0 <= e < 256 /\ tab ebcdic_to_hol_table e = Ok h) ->
  exists e, 0 <= e < 256 /\ hol_to_ebcdic h = Ok e /\ Z.land 255 e = e /\ ebcdic_to_hol e = Ok h.
Proof.
  intros [e [He Hh]]. destruct (ebcdic_inverse e He) as [h' [H1 [H2 H3]]]. unfold ebcdic_to_hol in H2.
  assert (h' = h) by congruence. subst h'. exists e. repeat split; auto; try lia.
  rewrite Z.land_comm. change 255 with (Z.ones 8). rewrite Z.land_ones by lia. apply Z.mod_small. lia.
Qed.

Lemma ebc_loop_ok : forall cols done more,
  Forall (fun h => exists e, 0 <= e < 256 /\ tab ebcdic_to_hol_table e = Ok h) cols ->
  exists b, punch_ebcdic cols = Ok b /\ length b = length cols /\
  forall z, length z = length cols ->
  ebc_loop (length cols) (b ++ more) (done ++ z) (length done) = Ok (done ++ cols, (length done + length cols)%nat).
Proof.
  induction cols as [|h cols IH]; intros done more Hc.
  - exists []. repeat split; auto. intros [|x z] Hz; [|discriminate]. cbn. rewrite Nat.add_0_r. reflexivity.
  - inversion Hc as [|? ? Hh Hr]; subst. destruct (ebc_col h Hh) as [e [He1 [He2 [He3 He4]]]].
    destruct (IH (done ++ [h]) more Hr) as [b [Eb [Hlb Hb]]].
    exists (e :: b). unfold punch_ebcdic in *. cbn [mapres]. rewrite He2. cbn [bind]. rewrite He3, Eb. cbn [bind].
    split; [reflexivity|]. split; [cbn; lia|]. intros [|x z] Hz; [discriminate|].
    cbn [app length ebc_loop]. rewrite He4. cbn [bind]. rewrite upd_mid.
    specialize (Hb z). rewrite <- app_assoc in Hb. cbn [app] in Hb. rewrite app_length in Hb. cbn [length] in Hb.
    replace (S (length done)) with (length done + 1)%nat by lia. rewrite Hb by (cbn in Hz; lia).
    rewrite <- app_assoc. cbn. f_equal. f_equal. lia.
Qed.

Lemma ebc_punch img more : ebcdic_card img ->
  exists b, punch_bytes MEbcdic img = Ok b /\ length b = 80%nat /\ decodes MEbcdic b img more.
Proof.
  intros [[Hl Hc] He]. destruct (ebc_loop_ok img [] more He) as [b [Eb [Hlb Hb]]].
  exists b. split; [exact Eb|]. split; [lia|]. intros jk. unfold parse_card. cbn [pick_mode].
  rewrite app_length, Hlb, Hl. replace (Z.of_nat (80 + length more) <? 80) with false by lia.
  specialize (Hb blank). rewrite Hl in Hb. cbn [app length] in Hb. change (length blank) with 80%nat in Hb.
  rewrite Hb by reflexivity. cbn [bind]. reflexivity.
Qed.

Lemma decodable_ebc deck : Forall ebcdic_card deck ->
  exists encs, Forall2 (fun img b => punch_bytes MEbcdic img = Ok b) deck encs /\ decodable MEbcdic encs deck.
Proof.
  induction 1 as [|img deck Hi Hd IH]; [exists []; cbn; auto|].
  destruct IH as [encs [H1 H2]]. destruct (ebc_punch img [] Hi) as [b [Eb [Hlb _]]].
  exists (b :: encs). split; [constructor; auto|]. cbn [decodable]. split; [lia|]. split; [|exact H2].
  intros more tail _ _. destruct (ebc_punch img more Hi) as [b' [Eb' [_ Hd']]]. congruence.
Qed.

(** ** Octal *)
Lemma oct_col h : 0 <= h < 4096 ->
  forallb (fun c => (48 <=? c) && (c <=? 55)) (oct4 h) = true /\
  (match oct4 h with
   | [a; b; c; d] =>
     Z.lor (Z.shiftl (Z.lor (Z.shiftl (Z.lor (Z.shiftl (Z.lor (Z.shiftl 0 3) (a - 48) mod 65536) 3) (b - 48) mod 65536) 3) (c - 48) mod 65536) 3) (d - 48) mod 65536
   | _ => -1
   end) = h.
Proof.
  intros Hh. pose proof (sweep 4096 (fun h => forallb (fun c => (48 <=? c) && (c <=? 55)) (oct4 h) &&
   ((match oct4 h with
   | [a; b; c; d] =>
     Z.lor (Z.shiftl (Z.lor (Z.shiftl (Z.lor (Z.shiftl (Z.lor (Z.shiftl 0 3) (a - 48) mod 65536) 3) (b - 48) mod 65536) 3) (c - 48) mod 65536) 3) (d - 48) mod 65536
   | _ => -1
   end) =? h)) ltac:(vm_compute; reflexivity) h Hh) as H.
  cbn beta in H. apply andb_true_iff in H. destruct H as [H1 H2]. apply Z.eqb_eq in H2. auto.
Qed.

Lemma setcol_mid done x r v : setcol (done ++ x :: r) (Z.of_nat (length done)) v = done ++ (v mod 65536) :: r.
Proof. unfold setcol. rewrite Nat2Z.id. apply upd_mid. Qed.
Lemma getcol_mid done x r : getcol (done ++ x :: r) (Z.of_nat (length done)) = x.
Proof. unfold getcol. rewrite Nat2Z.id, nth_error_app2, Nat.sub_diag by lia. reflexivity. Qed.

Lemma raw_loop_ok : forall cols done more i,
  Forall (fun h => 0 <= h < 4096) cols -> (length done + length cols = 80)%nat ->
  raw_loop (flat_map oct4 cols ++ 10 :: more) (done ++ repeat 0 (length cols)) (Z.of_nat (length done)) 0 i
  = (done ++ cols, (i + 4 * length cols)%nat).
Proof.
  induction cols as [|h cols IH]; intros done more i Hc Hl.
  - cbn [flat_map app repeat length raw_loop]. replace (80 <=? Z.of_nat (length done)) with true by (simpl in Hl; lia).
    f_equal. lia.
  - inversion Hc as [|? ? Hh Hr]; subst. cbn [length] in Hl.
    destruct (oct_col h Hh) as [H1 H2]. cbn [flat_map].
    destruct (oct4 h) as [|a [|b [|c [|d [|]]]]] eqn:E4; try (unfold oct4 in E4; discriminate).
    cbn [forallb] in H1. apply andb_true_iff in H1. destruct H1 as [Ha H1].
    apply andb_true_iff in H1. destruct H1 as [Hb H1]. apply andb_true_iff in H1. destruct H1 as [Hc' H1].
    apply andb_true_iff in H1. destruct H1 as [Hd _].
    cbn [app length repeat].
    assert (Hcol : (80 <=? Z.of_nat (length done)) = false) by lia.
    cbn [raw_loop]. rewrite Hcol, Ha, Hb, Hc', Hd.
    change (0 + 1 =? 4) with false. change (0 + 1 + 1 =? 4) with false. change (0 + 1 + 1 + 1 =? 4) with false.
    change (0 + 1 + 1 + 1 + 1 =? 4) with true. cbv iota.
    repeat first [rewrite setcol_mid|rewrite getcol_mid].
    rewrite H2.
    replace (Z.of_nat (length done) + 1) with (Z.of_nat (length (done ++ [h]))) by (rewrite app_length; cbn; lia).
    change (done ++ h :: repeat 0 (length cols)) with (done ++ [h] ++ repeat 0 (length cols)).
    rewrite app_assoc, IH; [|exact Hr|rewrite app_length; cbn; lia].
    rewrite <- app_assoc. cbn [app]. f_equal. lia.
Qed.

Lemma eol_at d junk i more : skipn i d = 10 :: more -> end_card d junk i = Ok (S i).
Proof.
  intros H. unfold end_card. rewrite H. cbn [eol_loop].
  change ((10 =? 10) || (10 =? 13)) with true. cbv iota.
  assert (Hn : nth_error d i = Some 10).
  { replace i with (i + 0)%nat by lia. rewrite <- nth_error_skipn, H. reflexivity. }
  unfold rd. rewrite Hn. cbn [bind]. change (10 =? 13) with false. cbv iota. rewrite Hn. reflexivity.
Qed.

Lemma flat_oct_length cols : length (flat_map oct4 cols) = (4 * length cols)%nat.
Proof. induction cols as [|h cols IH]; [reflexivity|]. cbn [flat_map]. rewrite app_length, IH. cbn. lia. Qed.

Lemma raw_decodes m img more : m <> MBin -> m <> MEbcdic -> is_card img ->
  (m = MAuto -> pick_mode MAuto (([126; 114; 97; 119] ++ flat_map oct4 img ++ [10]) ++ more) = MText) ->
  decodes m ([126; 114; 97; 119] ++ flat_map oct4 img ++ [10]) img more.
Proof.
  intros Hb He [Hl Hc] Hauto jk.
  assert (Hp : parse_text (([126; 114; 97; 119] ++ flat_map oct4 img ++ [10]) ++ more) jk =
     Ok (img, length ([126; 114; 97; 119] ++ flat_map oct4 img ++ [10]))).
  { unfold parse_text, cmpcard, kw_raw. rewrite <- !app_assoc. cbn [app].
    set (tl := flat_map oct4 img ++ 10 :: more).
    cbn [rd nth_error bind Z.eqb Pos.eqb negb skipn tilde_loop].
    change (80 <=? 1) with false.
    change ((114 =? 10) || (114 =? 0) || (114 =? 13)) with false. cbv iota. cbn [Z.eqb Pos.eqb].
    change (tolower 114) with 114. change (tolower 97) with 97. change (tolower 119) with 119.
    cbn [Z.eqb Pos.eqb negb bind]. cbv iota.
    assert (E : raw_loop tl blank 0 0 4 = (img, (4 + 4 * 80)%nat)).
    { pose proof (raw_loop_ok img [] more 4 Hc) as H. cbn [app length] in H. rewrite Hl in H.
      apply H. reflexivity. }
    rewrite E.
    assert (Hs : skipn (4 + 4 * 80) (126 :: 114 :: 97 :: 119 :: tl) = 10 :: more).
    { change (skipn (4 + 4 * 80) (126 :: 114 :: 97 :: 119 :: tl)) with (skipn (4 * 80) tl).
      unfold tl. replace (4 * 80)%nat with (length (flat_map oct4 img)) by (rewrite flat_oct_length; lia).
      apply skipn_app_len. }
    rewrite (eol_at _ jk _ more Hs). cbn [bind]. f_equal. f_equal.
    cbn [length]; rewrite app_length, flat_oct_length, Hl. reflexivity. }
  unfold parse_card. destruct m; try congruence; cbn [pick_mode].
  - specialize (Hauto eq_refl). cbn [pick_mode] in Hauto. rewrite Hauto, Hp. reflexivity.
  - rewrite Hp. reflexivity.
  - rewrite Hp. reflexivity.
Qed.

Lemma eo_decodes m x v more : m <> MBin -> m <> MEbcdic ->
  (x = 114 /\ v = 7 \/ x = 102 /\ v = 13 \/ x = 105 /\ v = 15) ->
  (m = MAuto -> pick_mode MAuto ([126; 101; 111; x; 10] ++ more) = MText) ->
  decodes m [126; 101; 111; x; 10] (v :: repeat 0 79) more.
Proof.
  intros Hb He Hx Hauto jk.
  assert (Hp : parse_text ([126; 101; 111; x; 10] ++ more) jk = Ok (v :: repeat 0 79, 5%nat)).
  { assert (He4 : forall y, end_card (126 :: 101 :: 111 :: y :: 10 :: more) jk 4 = Ok 5%nat)
      by (intros y; apply (eol_at _ jk 4 more); reflexivity).
    cbn [app]. destruct Hx as [[-> ->]|[[-> ->]|[-> ->]]]; unfold parse_text; cbn -[end_card raw_loop text_loop];
      rewrite He4; reflexivity. }
  unfold parse_card. destruct m; try congruence; cbn [pick_mode].
  - specialize (Hauto eq_refl). cbn [pick_mode] in Hauto. rewrite Hauto, Hp. reflexivity.
  - rewrite Hp. reflexivity.
  - rewrite Hp. reflexivity.
Qed.

Lemma last_punched_zero : forall l i b, last_punched l i b = b \/ (i <= last_punched l i b < i + Z.of_nat (length l)).
Proof.
  induction l as [|c l IH]; intros i b; cbn [last_punched]; [auto|].
  cbn [length]. destruct (IH (i + 1) (if c =? 0 then b else i)) as [H|H]; [|right; lia].
  rewrite H. destruct (c =? 0); [auto|right; lia].
Qed.

Lemma last_punched_none : forall l i, 0 < i -> last_punched l i 0 = 0 -> Forall (fun c => c = 0) l.
Proof.
  induction l as [|c l IH]; intros i Hi H; [constructor|]. cbn [last_punched] in H.
  destruct (c =? 0) eqn:Hc.
  - constructor; [lia|]. apply (IH (i + 1)); [lia|exact H].
  - destruct (last_punched_zero l (i + 1) i) as [H'|H']; lia.
Qed.

Lemma last_punched_first img : last_punched img 0 (-1) = 0 -> exists h, h <> 0 /\ img = h :: repeat 0 (length img - 1).
Proof.
  destruct img as [|h l]; [discriminate|]. cbn [last_punched]. change (0 + 1) with 1. intros H.
  destruct (h =? 0) eqn:Hh.
  - destruct (last_punched_zero l 1 (-1)) as [H'|H']; lia.
  - exists h. split; [lia|]. apply last_punched_none in H; [|lia]. cbn [length Nat.sub]. rewrite Nat.sub_0_r. f_equal.
    clear - H. induction H as [|c l Hc Hl IH]; [reflexivity|]. cbn. congruence.
Qed.

(** How the octal form comes out. *)
Lemma punch_octal_cases img : is_card img -> octal_safe img ->
  (punch_octal img = [126; 114; 97; 119] ++ flat_map oct4 img ++ [10]) \/
  (exists x v, (x = 114 /\ v = 7 \/ x = 102 /\ v = 13 \/ x = 105 /\ v = 15) /\ punch_octal img = [126; 101; 111; x; 10] /\ img = v :: repeat 0 79).
Proof.
  intros [Hl Hc] Hok. unfold punch_octal. destruct (last_punched img 0 (-1) =? 0) eqn:E; [|left; reflexivity].
  right. apply Z.eqb_eq in E. destruct (last_punched_first img E) as [h [Hh Himg]]. rewrite Hl in Himg. cbn [Nat.sub] in Himg.
  assert (Ho : only_first_column img) by (exists h; auto). specialize (Hok Ho).
  rewrite Himg in *. change (getcol (h :: repeat 0 79) 0) with h in *. cbn [nth_error] in Hok.
  assert (Hok' : h = 7 \/ h = 13 \/ h = 15) by (destruct Hok as [K|[K|K]]; injection K as ->; auto).
  clear Hok. destruct Hok' as [->|[->| ->]].
  - exists 114, 7. repeat split; auto.
  - exists 102, 13. repeat split; auto.
  - exists 105, 15. repeat split; auto.
Qed.

Lemma octal_decodes m img more : m <> MBin -> m <> MEbcdic -> is_card img -> octal_safe img ->
  (m = MAuto -> pick_mode MAuto (punch_octal img ++ more) = MText) ->
  (0 < length (punch_octal img) < 500)%nat /\ decodes m (punch_octal img) img more.
Proof.
  intros Hb He Hi Hs Hauto. destruct (punch_octal_cases img Hi Hs) as [E|[x [v [Hx [E Himg]]]]].
  - rewrite E in *. split.
    + rewrite !app_length, flat_oct_length. destruct Hi as [-> _]. cbn. lia.
    + apply raw_decodes; auto.
  - rewrite E in *. rewrite Himg. split; [cbn; lia|]. apply eo_decodes; auto.
Qed.

(** ** Text *)
Lemma text_col h a : punch_of h a ->
  exists a', 32 <= a' < 127 /\ hol_to_ascii h = Ok a' /\ tab ascii_to_hol_029 a' = Ok h /\
    0 <= h < 4096 /\ Z.land h 61440 = 0 /\ Z.land h 4095 = h /\ (a' = 32 -> h = 0) /\ (h = 0 -> a' = 32).
Proof.
  intros [Ha Hh].
  pose proof (sweep 127 (fun a => (a <? 32) || match tab ascii_to_hol_029 a with Ok h =>
      match hol_to_ascii h with Ok a' => (32 <=? a') && (a' <? 127) && res_eqb (tab ascii_to_hol_029 a') h &&
        (0 <=? h) && (h <? 4096) && (Z.land h 61440 =? 0) && (Z.land h 4095 =? h) && (negb (a' =? 32) || (h =? 0)) && (negb (h =? 0) || (a' =? 32))
      | _ => false end | _ => false end) ltac:(vm_compute; reflexivity) a ltac:(lia)) as H.
  cbn beta in H. replace (a <? 32) with false in H by lia. cbn [orb] in H. rewrite Hh in H.
  destruct (hol_to_ascii h) as [a'| |]; try discriminate. exists a'.
  repeat (apply andb_true_iff in H; let H' := fresh in destruct H as [H H']).
  match goal with K : res_eqb _ _ = true |- _ => apply res_eqb_eq in K end.
  repeat split; auto; lia.
Qed.

(** The text of a printable card. *)
Lemma text_of_card : forall cols, Forall (fun h => exists a, punch_of h a) cols ->
  exists t, mapres punch_char cols = Ok t /\ Forall2 (fun h a => punch_of h a /\ hol_to_ascii h = Ok a /\ Z.land h 61440 = 0 /\ Z.land h 4095 = h /\ 0 <= h < 4096 /\ (a = 32 -> h = 0)) cols t
    /\ mapres hol_to_ascii cols = Ok t.
Proof.
  induction 1 as [|h cols [a Ha] Hc IH]; [exists []; cbn; auto|].
  destruct IH as [t [E [F M]]]. destruct (text_col h a Ha) as [a' [H1 [H2 [H3 [H4 [H5 [H6 [H7 H8]]]]]]]].
  exists (a' :: t). cbn [mapres]. unfold punch_char at 1. rewrite H2. cbn [bind].
  replace (a' =? 255) with false by lia. rewrite E, M. cbn [bind]. split; [reflexivity|]. split; [|reflexivity].
  constructor; auto. repeat split; auto; try lia.
Qed.

Lemma text_loop_ok : forall cols t done k more i,
  Forall2 (fun h a => punch_of h a /\ hol_to_ascii h = Ok a /\ Z.land h 61440 = 0 /\ Z.land h 4095 = h /\ 0 <= h < 4096 /\ (a = 32 -> h = 0)) cols t ->
  (length done + length cols + k = 80)%nat ->
  text_loop (t ++ 10 :: more) (done ++ repeat 0 (length cols + k)) (Z.of_nat (length done)) i
  = Ok (done ++ cols ++ repeat 0 k, (i + length cols)%nat).
Proof.
  induction cols as [|h cols IH]; intros t done k more i Hf Hl; inversion Hf as [|? a ? t' Ha Ht]; subst.
  - cbn [app length repeat plus text_loop]. cbn [length] in Hl.
    destruct (80 <=? Z.of_nat (length done)); [f_equal; f_equal; lia|].
    change ((10 =? 0) || (10 =? 13)) with false. cbn [Z.eqb Pos.eqb]. f_equal. f_equal. lia.
  - cbn [length] in Hl. cbn [app length plus repeat text_loop].
    destruct Ha as [[Ha1 Ha2] [_ [Ha3 [Ha4 [Ha5 _]]]]].
    replace (80 <=? Z.of_nat (length done)) with false by lia.
    replace (a =? 0) with false by lia. replace (a =? 13) with false by lia.
    replace (a =? 9) with false by lia. replace (a =? 10) with false by lia. cbn [orb].
    rewrite Ha2. cbn [bind]. rewrite Ha3. cbn [Z.eqb negb]. rewrite setcol_mid, Ha4.
    rewrite Z.mod_small by lia.
    replace (Z.of_nat (length done) + 1) with (Z.of_nat (length (done ++ [h]))) by (rewrite app_length; cbn; lia).
    change (done ++ h :: repeat 0 (length cols + k)) with (done ++ [h] ++ repeat 0 (length cols + k)).
    rewrite app_assoc, (IH t' (done ++ [h]) k more (S i) Ht) by (rewrite app_length; cbn; lia).
    rewrite <- app_assoc. cbn [app]. f_equal. f_equal. lia.
Qed.

Lemma drop_blanks_split : forall l, exists k, l = repeat 32 k ++ drop_blanks l /\
  (drop_blanks l = [] \/ exists c r, drop_blanks l = c :: r /\ c <> 32).
Proof.
  induction l as [|c l IH]; [exists 0%nat; auto|]. cbn [drop_blanks]. destruct (c =? 32) eqn:E.
  - destruct IH as [k [H1 H2]]. exists (S k). cbn. rewrite <- H1. split; [f_equal; lia|exact H2].
  - exists 0%nat. cbn. split; [reflexivity|]. right. exists c, l. split; [reflexivity|lia].
Qed.

Lemma repeat_rev {A} (x : A) k : rev (repeat x k) = repeat x k.
Proof. induction k as [|k IH]; [reflexivity|]. cbn [repeat rev]. rewrite IH. symmetry. apply repeat_cons. Qed.

Lemma trim_split c r : exists k, c :: r = trim (c :: r) ++ repeat 32 k /\
  (trim (c :: r) = [c] \/ exists u z, trim (c :: r) = c :: u ++ [z] /\ z <> 32).
Proof.
  cbn [trim]. destruct (drop_blanks_split (rev r)) as [k [H1 H2]]. exists k. split.
  - cbn [app]. f_equal. apply (f_equal (@rev Z)) in H1. rewrite rev_involutive, rev_app_distr, repeat_rev in H1. exact H1.
  - destruct H2 as [->|[z [u [-> Hz]]]]; [left; reflexivity|]. right. exists (rev u), z. cbn. auto.
Qed.

Lemma Forall2_split {A B} (R : A -> B -> Prop) : forall l1 l2 cs, Forall2 R cs (l1 ++ l2) ->
  exists c1 c2, cs = c1 ++ c2 /\ Forall2 R c1 l1 /\ Forall2 R c2 l2.
Proof.
  induction l1 as [|x l1 IH]; intros l2 cs H; [exists [], cs; auto|].
  inversion H as [|c ? cs' ? Hc Hr]; subst. destruct (IH l2 cs' Hr) as [c1 [c2 [-> [H1 H2]]]].
  exists (c :: c1), c2. auto.
Qed.

(** Scanning a ~ line that has text behind the ~. *)
Lemma tilde_loop_text : forall u z more i, Forall (fun a => 32 <= a < 127) u -> 32 < z < 127 ->
  tilde_loop (u ++ z :: more) 1 i = None.
Proof.
  induction u as [|a u IH]; intros z more i Hu Hz; cbn [app tilde_loop].
  - change (80 <=? 1) with false. replace (z =? 10) with false by lia. replace (z =? 0) with false by lia.
    replace (z =? 13) with false by lia. replace (z =? 32) with false by lia. replace (z =? 9) with false by lia. reflexivity.
  - inversion Hu as [|? ? Ha Hr]; subst. change (80 <=? 1) with false.
    replace (a =? 10) with false by lia. replace (a =? 0) with false by lia. replace (a =? 13) with false by lia.
    replace (a =? 9) with false by lia. cbn [orb]. destruct (a =? 32); [apply IH; auto|reflexivity].
Qed.

(** _cmpcard on a line. *)
Definition kw (t : list Z) (s : Z * Z * Z) : bool :=
  let '(s0, s1, s2) := s in
  match t with
  | p :: a :: b :: c :: _ => (p =? 126) && ((tolower a =? s0) && (tolower b =? s1) && (tolower c =? s2))
  | _ => false
  end.

Lemma cmpcard_line t more jk s0 s1 s2 : t <> [] -> Forall (fun a => 32 <= a < 127) t ->
  97 <= s0 -> 97 <= s1 -> 97 <= s2 ->
  cmpcard (t ++ 10 :: more) jk (s0, s1, s2) = Ok (kw t (s0, s1, s2)).
Proof.
  intros Hne Ht H0 H1 H2. unfold cmpcard, kw, rd.
  destruct t as [|p t]; [congruence|]. cbn [app nth_error bind].
  destruct (p =? 126) eqn:Hp; cbn [negb].
  2:{ destruct t as [|a [|b [|c t]]]; rewrite ?Hp; reflexivity. }
  assert (Ht10 : tolower 10 = 10) by reflexivity.
  destruct t as [|a t]; cbn [app nth_error bind].
  { rewrite Ht10. replace (10 =? s0) with false by lia. reflexivity. }
  destruct (tolower a =? s0) eqn:Ea; cbn [negb andb].
  2:{ destruct t as [|b [|c t]]; reflexivity. }
  destruct t as [|b t]; cbn [app nth_error bind].
  { rewrite Ht10. replace (10 =? s1) with false by lia. reflexivity. }
  destruct (tolower b =? s1) eqn:Eb; cbn [negb andb].
  2:{ destruct t as [|c t]; reflexivity. }
  destruct t as [|c t]; cbn [app nth_error bind].
  { rewrite Ht10. replace (10 =? s2) with false by lia. reflexivity. }
  reflexivity.
Qed.

Lemma kw_control t s : control_line t = false -> In s [kw_raw; kw_eor; kw_eof; kw_eoi] -> kw t s = false.
Proof.
  intros Hc Hs. destruct (kw t s) eqn:E; [|reflexivity]. exfalso.
  destruct s as [[s0 s1] s2]. unfold kw in E.
  destruct t as [|p [|a [|b [|c t]]]]; try discriminate.
  apply andb_true_iff in E. destruct E as [Ep E].
  apply andb_true_iff in E. destruct E as [E E3]. apply andb_true_iff in E. destruct E as [E1 E2].
  apply Z.eqb_eq in E1, E2, E3. unfold control_line, keyword in Hc. rewrite Ep, E1, E2, E3 in Hc.
  unfold kw_raw, kw_eor, kw_eof, kw_eoi in Hs. cbn [In] in Hs.
  destruct Hs as [H|[H|[H|[H|[]]]]]; injection H as <- <- <-; rewrite orb_true_r in Hc; discriminate.
Qed.

(** Leaving off trailing blanks does not make a control line. *)
Lemma control_line_trim t k : control_line (t ++ repeat 32 k) = false -> control_line t = false.
Proof.
  intros H. destruct t as [|p r]; [reflexivity|]. cbn [app control_line] in *.
  destruct (p =? 126); [cbn [andb] in *|reflexivity]. apply orb_false_iff in H. destruct H as [H1 H2].
  apply orb_false_iff. split.
  - rewrite forallb_app in H1. destruct (forallb _ r); [|reflexivity]. cbn [andb] in H1. rewrite <- H1. clear.
    induction k as [|k IH]; [reflexivity|]. cbn [repeat forallb Z.eqb Pos.eqb andb]. rewrite <- IH. reflexivity.
  - destruct r as [|a [|b [|c r]]]; try reflexivity. exact H2.
Qed.

Lemma text_decodes m img more : m <> MBin -> m <> MEbcdic -> printable_card img -> text_safe img ->
  exists b, punch_text img = Ok b /\ (0 < length b < 500)%nat /\
  ((m = MAuto -> pick_mode MAuto (b ++ more) = MText) -> decodes m b img more).
Proof.
  intros Hb He [[Hl Hc] Hp] Hsafe.
  destruct (text_of_card img Hp) as [t [Et [F _]]].
  assert (Hlt : length t = 80%nat) by (apply Forall2_length in F; congruence).
  destruct t as [|c0 r0] eqn:Ht; [discriminate|].
  destruct (trim_split c0 r0) as [k [Hk Htrim]].
  unfold punch_text. rewrite Et. cbn [bind].
  set (tr := trim (c0 :: r0)) in *.
  assert (Hctl : control_line tr = false).
  { apply (control_line_trim tr k). rewrite <- Hk. apply Hsafe.
    clear - F. induction F as [|h a cs t [Ha _] F IH]; constructor; auto. }
  exists (tr ++ [10]). split; [reflexivity|].
  rewrite Hk in F. destruct (Forall2_split _ tr (repeat 32 k) img F) as [cs [zs [Himg [F1 F2]]]].
  assert (Hzs : zs = repeat 0 k).
  { clear - F2. revert zs F2. induction k as [|k IH]; intros zs F2; inversion F2 as [|z ? zs' ? Hz Hr]; subst; [reflexivity|].
    cbn. rewrite (IH _ Hr). f_equal. apply Hz. reflexivity. }
  subst zs. assert (Hcl : length cs = length tr) by (eapply Forall2_length; eauto).
  assert (Hlen80 : (length tr + k = 80)%nat).
  { rewrite Hk in Hlt. rewrite app_length, repeat_length in Hlt. exact Hlt. }
  assert (Hpr : Forall (fun a => 32 <= a < 127) tr).
  { clear - F1. induction F1 as [|h a cs tr Ha F1 IH]; constructor; auto. apply Ha. }
  assert (Hne : tr <> []) by (destruct Htrim as [->|[u [z [-> _]]]]; discriminate).
  clearbody tr. split; [rewrite app_length; cbn [length]; lia|].
  intros Hauto jk.
  assert (Hparse : parse_text ((tr ++ [10]) ++ more) jk = Ok (img, length (tr ++ [10]))).
  { rewrite <- app_assoc. cbn [app]. unfold parse_text.
    assert (Hsp : (let* p0 := rd (tr ++ 10 :: more) jk 0 in
       Ok (if p0 =? 126 then tilde_loop (skipn 1 (tr ++ 10 :: more)) 1 1 else None)) = Ok None).
    { destruct Htrim as [Htr|[u [z [Htr Hz]]]]; rewrite Htr; unfold rd; cbn [app nth_error bind].
      - destruct (c0 =? 126) eqn:E; [|reflexivity]. exfalso. assert (c0 = 126) by lia. subst c0.
        rewrite Htr in Hctl. discriminate.
      - destruct (c0 =? 126); [|reflexivity]. cbn [skipn]. rewrite <- app_assoc. cbn [app].
        rewrite Htr in Hpr. inversion Hpr as [|? ? _ Hpr']; subst. apply Forall_app in Hpr'. destruct Hpr' as [Hu Hz'].
        inversion Hz'; subst. rewrite tilde_loop_text; auto. lia. }
    destruct (rd (tr ++ 10 :: more) jk 0) as [p0| |]; cbn [bind] in Hsp |- *; try discriminate.
    match type of Hsp with Ok ?x = Ok None => assert (Hn : x = None) by congruence end. rewrite Hn.
    unfold kw_raw, kw_eor, kw_eof, kw_eoi.
    rewrite !cmpcard_line by (auto; lia). cbn [bind].
    rewrite !(kw_control tr) by (auto; cbn; unfold kw_raw, kw_eor, kw_eof, kw_eoi; auto).
    pose proof (text_loop_ok cs tr [] k more 0 F1) as Hloop. cbn [app length plus] in Hloop.
    rewrite Hcl, Hlen80 in Hloop. change (repeat 0 80) with blank in Hloop. change (Z.of_nat 0) with 0 in Hloop. rewrite Hloop by reflexivity.
    cbn [bind]. rewrite (eol_at _ jk (length tr) more) by apply skipn_app_len. cbn [bind].
    rewrite Himg. f_equal. f_equal. rewrite app_length. cbn. lia. }
  unfold parse_card. destruct m; try congruence; cbn [pick_mode].
  - specialize (Hauto eq_refl). cbn [pick_mode] in Hauto. rewrite Hauto, Hparse. reflexivity.
  - rewrite Hparse. reflexivity.
  - rewrite Hparse. reflexivity.
Qed.
