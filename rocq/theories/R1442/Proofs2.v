(** The card reader and punch: where the cards go. *)
From Verif Require Export R1442.Proofs Card.Tables Card.Proofs Card.Proofs2.

Lemma stacked_put c img c' : ctx_ok c -> put (grow c) img = Ok c' -> stacked c' = stacked c ++ [img].
Proof.
  intros H P. destruct (grow_ok c H) as (G1 & _ & G3 & _ & _ & _ & G7). unfold put in P. rewrite (proj2 (Nat.ltb_lt _ _) G3) in P. injection P as <-.
  unfold stacked. cbn [c_cards c_images]. rewrite upd_firstn by exact G3. f_equal. rewrite G7. unfold grow. destruct (Nat.leb_spec (length (c_images c)) (c_cards c)) as [L|L]; [|reflexivity].
  cbn [c_images]. unfold ctx_ok in H. assert (E : c_cards c = length (c_images c)) by (clear -H L; lia). rewrite firstn_app, firstn_length, app_length, E.
  replace (length (c_images c) - _)%nat with 0%nat by lia. cbn [firstn]. rewrite app_nil_r, firstn_firstn, Nat.min_id, firstn_app, Nat.sub_diag. cbn [firstn]. apply app_nil_r.
Qed.
Lemma flush_good c : ctx_good c -> c_file c <> None -> exists c', flush_cards c = Ok c' /\ ctx_good c' /\ stacked c' = stacked c.
Proof.
  intros [OK U] F. destruct (c_file c) as [f|] eqn:EF; [|congruence]. clear F.
  assert (H : exists bs, Forall2 (fun img b => punch_bytes (c_mode c) img = Ok b) (unread c) bs).
  { clear -U. induction U as [|img d Hi Hd IH]; [exists []; constructor|]. destruct IH as [bs Hb]. destruct (punch_bytes_total (c_mode c) img Hi) as [b Eb]. exists (b :: bs). constructor; auto. }
  destruct H as [bs HB]. destruct (flush_loop_ok _ c _ bs f OK eq_refl (unread_length c OK) HB EF) as (c' & E & _ & _ & F3 & F4 & F5).
  exists c'. split; [exact E|]. unfold ctx_good, stacked, ctx_ok, unread. rewrite F3, F4, F5. unfold ctx_ok in OK. split; [|reflexivity]. split; [clear -OK; lia|].
  replace (c_cards c - _)%nat with 0%nat by (clear -OK; lia). apply Forall_nil.
Qed.
Lemma stack_good c img : ctx_good c -> is_card img -> exists c', stack_card c img = Ok c' /\ ctx_good c' /\ stacked c' = stacked c ++ [img].
Proof.
  intros [OK U] I. unfold stack_card. destruct (append_ok c img OK) as (c1 & E & A1 & A2 & A3 & A4 & A5 & A6). rewrite E. cbn [bind].
  assert (G : ctx_good c1) by (split; [exact A1|rewrite A2; apply Forall_app; split; [exact U|constructor; [exact I|apply Forall_nil]]]).
  pose proof (stacked_put c img c1 OK E) as ST. destruct (c_file c1) as [f|] eqn:EF.
  - destruct (flush_good c1 G) as (c2 & E2 & G2 & S2); [congruence|]. exists c2. split; [exact E2|]. split; [exact G2|congruence].
  - exists c1. split; [reflexivity|]. split; assumption.
Qed.
Lemma save_good c : ctx_good c -> exists c', save_deck c = Ok c' /\ ctx_good c' /\ stacked c' = stacked c.
Proof.
  intros G. unfold save_deck. apply (flush_good (Ctx (c_mode c) (c_images c) (c_cards c) (c_pos c) (Some []))); [exact G|cbn; discriminate].
Qed.
Lemma read_good c : ctx_good c -> exists c' x, read_card c = Ok (c', x) /\ ctx_good c' /\
  unread c = (match x with Some i => [i] | None => [] end) ++ unread c' /\ (forall i, x = Some i -> is_card i).
Proof.
  intros [OK U]. destruct (unread c) as [|img r] eqn:E.
  - exists c, None. split; [apply read_card_empty; assumption|]. split; [split; [exact OK|rewrite E; exact U]|]. split; [symmetry; exact E|discriminate].
  - inversion U as [|? ? I U']; subst. destruct (read_card_ok c img r OK E I) as (c' & R & OK' & E' & _). exists c', (Some img). split; [exact R|].
    split; [split; [exact OK'|rewrite E'; exact U']|]. split; [rewrite E'; reflexivity|]. intros i [= <-]. exact I.
Qed.

(** *** A feed *)
Definition gone (s s' : dev) (out : list (bool * card)) : Prop :=
  stacked (d_stack0 s') = stacked (d_stack0 s) ++ to_stacker false out /\ stacked (d_stack1 s') = stacked (d_stack1 s) ++ to_stacker true out.
Definition cs (s : dev) := (d_feed s, d_stack0 s, d_stack1 s, (d_rdr_card s, d_rdr_full s, d_pch_card s, d_pch_full s)).
Lemma cs_eq s s' : cs s' = cs s -> d_feed s' = d_feed s /\ d_stack0 s' = d_stack0 s /\ d_stack1 s' = d_stack1 s /\ d_rdr_card s' = d_rdr_card s /\
  d_rdr_full s' = d_rdr_full s /\ d_pch_card s' = d_pch_card s /\ d_pch_full s' = d_pch_full s.
Proof. unfold cs. intros H. injection H as -> -> -> -> -> -> ->. repeat split. Qed.
Lemma cs_path s s' : cs s' = cs s -> path s' = path s /\ (cards_ok s -> cards_ok s') /\ gone s s' [].
Proof.
  intros H. apply cs_eq in H. destruct H as (H1 & H2 & H3 & H4 & H5 & H6 & H7). unfold path, cards_ok, gone. rewrite H1, H2, H3, H4, H5, H6, H7.
  split; [reflexivity|]. split; [exact (fun H => H)|]. cbn [to_stacker filter map]. rewrite !app_nil_r. split; reflexivity.
Qed.

Lemma feed_cards s : cards_ok s -> exists s' out, do_feed s = Ok s' /\ cards_ok s' /\ gone s s' out /\ path s = map snd out ++ path s'.
Proof.
  intros OK. unfold do_feed. destruct (_ && _).
  { eexists. exists []. split; [reflexivity|]. match goal with |- cards_ok ?x /\ _ => destruct (cs_path s x eq_refl) as (P1 & P2 & P3) end. split; [apply P2, OK|]. split; [exact P3|symmetry; exact P1]. }
  cbv zeta.
  assert (S1 : exists s1 out, (if d_pch_full s then let* c := stack_card (if d_stk_sel s then d_stack1 s else d_stack0 s) (d_pch_card s) in
        Ok (set_pch_col 0 (set_pch_full false (if d_stk_sel s then set_stack1 c s else set_stack0 c s))) else Ok s) = Ok s1 /\ cards_ok s1 /\ gone s s1 out /\
        path s = map snd out ++ path s1 /\ d_pch_full s1 = false).
  { destruct OK as (F & K0 & K1 & R & P). destruct (d_pch_full s) eqn:PF.
    - destruct (d_stk_sel s).
      + destruct (stack_good _ _ K1 P) as (c & -> & G & ST). cbn [bind]. eexists. exists [(true, d_pch_card s)]. split; [reflexivity|]. split; [repeat split; try apply F; try apply K0; try apply G; try apply R; apply P|].
        split; [|split; [unfold path; rewrite PF; reflexivity|reflexivity]]. unfold gone. cbn. rewrite app_nil_r. split; [reflexivity|exact ST].
      + destruct (stack_good _ _ K0 P) as (c & -> & G & ST). cbn [bind]. eexists. exists [(false, d_pch_card s)]. split; [reflexivity|]. split; [repeat split; try apply F; try apply K1; try apply G; try apply R; apply P|].
        split; [|split; [unfold path; rewrite PF; reflexivity|reflexivity]]. unfold gone. cbn. rewrite app_nil_r. split; [exact ST|reflexivity].
    - exists s, []. split; [reflexivity|]. split; [repeat split; try apply F; try apply K1; try apply K0; try apply R; apply P|]. unfold gone. cbn. rewrite !app_nil_r. repeat split. exact PF. }
  destruct S1 as (s1 & out & -> & OK1 & G1 & P1 & PF1). cbn [bind]. clear OK.
  set (s2 := if d_rdr_full s1 then _ else s1).
  assert (S2 : cards_ok s2 /\ gone s s2 out /\ path s = map snd out ++ (path s2) /\ d_rdr_full s2 = false).
  { subst s2. destruct (d_rdr_full s1) eqn:RF; [|repeat split; assumption || apply G1 || apply OK1]. destruct OK1 as (F & K0 & K1 & R & P).
    split; [repeat split; try apply F; try apply K0; try apply K1; try apply R|]. split; [exact G1|]. split; [|reflexivity]. rewrite P1. unfold path. rewrite PF1, RF. reflexivity. }
  clearbody s2. clear OK1 G1 P1 PF1 s1. destruct S2 as (OK2 & G2 & P2 & RF2).
  assert (S3 : forall s3, cards_ok s3 -> gone s s3 out -> path s = map snd out ++ path s3 ->
    exists s' out, Ok (if d_rdy (set_rdr_col 0 (set_stop false s3)) then set_sense (Z.land (d_sense (set_rdr_col 0 (set_stop false s3))) (Z.lnot S_INTERV)) (set_rdr_col 0 (set_stop false s3))
       else or_sense S_INTERV (set_rdr_col 0 (set_stop false s3))) = Ok s' /\ cards_ok s' /\ gone s s' out /\ path s = map snd out ++ path s').
  { intros s3 OK3 G3 P3. eexists. exists out. split; [reflexivity|]. destruct (d_rdy _); (split; [exact OK3|split; [exact G3|exact P3]]). }
  destruct (negb (d_stop s2)); cbn [bind]; [|apply S3; assumption].
  destruct OK2 as (F & K0 & K1 & R & P). destruct (read_good _ F) as (f & x & -> & F' & U & I). cbn [bind fst snd].
  apply S3.
  - destruct x as [i|]; match goal with |- cards_ok (if ?b then _ else _) => destruct b end; (repeat split; try apply F'; try apply K0; try apply K1; try apply P; try apply R; apply (I i eq_refl)).
  - destruct x as [i|]; match goal with |- gone _ (if ?b then _ else _) _ => destruct b end; exact G2.
  - rewrite P2. f_equal. unfold path at 1. rewrite RF2, U. destruct x as [i|]; match goal with |- _ = path (if ?b then _ else _) => destruct b end; reflexivity.
Qed.

(** *** Everything that can happen *)
Lemma land_lor_absorb x h : Z.land x (Z.lor x h) = x.
Proof. apply Z.bits_inj'. intros n N. rewrite Z.land_spec, Z.lor_spec. destruct (Z.testbit x n), (Z.testbit h n); reflexivity. Qed.
Lemma punched_refl c : punched c c.
Proof. unfold punched. induction c as [|x c IH]; constructor; [apply Z.land_diag|exact IH]. Qed.
Lemma punched_trans c1 : forall c2 c3, punched c1 c2 -> punched c2 c3 -> punched c1 c3.
Proof.
  unfold punched. induction c1 as [|x c IH]; intros c2 c3 H12 H23; inversion H12; subst; inversion H23; subst; constructor; [|eapply IH; eassumption].
  match goal with H : Z.land x ?y = x, H' : Z.land ?y ?z = ?y |- _ => rewrite <- H at 1; rewrite <- Z.land_assoc, H'; exact H end.
Qed.
Lemma punched_refls l : Forall2 punched l l.
Proof. induction l; constructor; [apply punched_refl|assumption]. Qed.
Lemma punched_transs l1 : forall l2 l3, Forall2 punched l1 l2 -> Forall2 punched l2 l3 -> Forall2 punched l1 l3.
Proof. induction l1 as [|x l IH]; intros l2 l3 H12 H23; inversion H12; subst; inversion H23; subst; constructor; [eapply punched_trans; eassumption|eapply IH; eassumption]. Qed.
Lemma punched_col c i v h : tab c i = Ok v -> punched c (upd_card c i (Z.lor v h)).
Proof.
  unfold tab, upd_card. destruct (i <? 0); [discriminate|]. generalize (Z.to_nat i). clear i. intros n H. revert n H. induction c as [|x c IH]; intros [|n] H; cbn in *; try discriminate.
  - injection H as ->. constructor; [apply land_lor_absorb|apply punched_refl].
  - constructor; [apply Z.land_diag|apply IH; exact H].
Qed.
Lemma hol_range e h : ebcdic_to_hol e = Ok h -> 0 <= h < 4096.
Proof.
  unfold ebcdic_to_hol, tab. destruct (e <? 0); [discriminate|]. destruct (nth_error _ _) as [x|] eqn:E; [|discriminate]. intros H. injection H as ->.
  assert (F : forallb (fun x => (0 <=? x) && (x <? 4096)) ebcdic_to_hol_table = true) by (vm_compute; reflexivity). rewrite forallb_forall in F. specialize (F h (nth_error_In _ _ E)). lia.
Qed.
Lemma lor_12 x y : 0 <= x < 4096 -> 0 <= y < 4096 -> 0 <= Z.lor x y < 4096.
Proof.
  intros X Y. split; [apply Z.lor_nonneg; lia|]. destruct (Z.eq_dec (Z.lor x y) 0) as [->|N]; [lia|]. apply Z.log2_lt_cancel. change (Z.log2 4096) with 12.
  rewrite Z.log2_lor by lia. assert (Z.log2 x < 12) by (destruct (Z.eq_dec x 0) as [->|]; [reflexivity|apply Z.log2_lt_pow2; lia]).
  assert (Z.log2 y < 12) by (destruct (Z.eq_dec y 0) as [->|]; [reflexivity|apply Z.log2_lt_pow2; lia]). lia.
Qed.
Lemma card_col c i v h : is_card c -> tab c i = Ok v -> 0 <= h < 4096 -> is_card (upd_card c i (Z.lor v h)).
Proof.
  unfold tab, upd_card. destruct (i <? 0); [discriminate|]. generalize (Z.to_nat i). clear i. intros n [L F] H Hh. split; [rewrite upd_length; exact L|].
  clear L. revert n H F. induction c as [|x c IH]; intros [|n] H F; cbn in *; try discriminate; inversion F; subst.
  - injection H as ->. constructor; [apply lor_12; assumption|assumption].
  - constructor; [assumption|apply IH; assumption].
Qed.

Definition moves (s s' : dev) : Prop := cards_ok s' /\ exists out, gone s s' out /\ Forall2 punched (path s) (map snd out ++ path s').
Lemma moves_same s s' : cards_ok s -> cs s' = cs s -> moves s s'.
Proof. intros OK C. destruct (cs_path s s' C) as (P & K & G). split; [apply K, OK|]. exists []. split; [exact G|]. cbn [map app]. rewrite P. apply punched_refls. Qed.
Lemma moves_trans s1 s2 s3 : moves s1 s2 -> moves s2 s3 -> moves s1 s3.
Proof.
  intros (_ & o1 & (G1 & G1') & P1) (OK & o2 & (G2 & G2') & P2). split; [exact OK|]. exists (o1 ++ o2). unfold gone, to_stacker in *. rewrite !filter_app, !map_app, !app_assoc. split; [split; congruence|].
  eapply punched_transs; [exact P1|]. rewrite <- app_assoc. apply Forall2_app; [apply punched_refls|exact P2].
Qed.
Lemma moves_feed s s' : cards_ok s -> do_feed s = Ok s' -> moves s s'.
Proof. intros OK H. destruct (feed_cards s OK) as (s1 & out & E & OK1 & G & P). rewrite E in H. injection H as <-. split; [exact OK1|]. exists out. split; [exact G|]. rewrite P. apply punched_refls. Qed.
Lemma moves_after s s1 s2 : cards_ok s -> cs s1 = cs s -> moves s1 s2 -> moves s s2.
Proof. intros OK C M. eapply moves_trans; [apply moves_same; eassumption|exact M]. Qed.
Lemma moves_then s s1 s2 : moves s s1 -> cs s2 = cs s1 -> moves s s2.
Proof. intros M C. eapply moves_trans; [exact M|]. apply moves_same; [apply M|exact C]. Qed.
Lemma cs_ok s s1 : cards_ok s -> cs s1 = cs s -> cards_ok s1.
Proof. intros OK C. apply (cs_path s s1 C). exact OK. Qed.

Lemma key_moves s k s' : cards_ok s -> keeps_cards (Key k) -> do_key s k = Ok s' -> moves s s'.
Proof.
  intros OK K H. unfold do_key in H. destruct k; cbn [bind] in H; cbn in K; try contradiction.
  - injection H as <-. apply moves_same; [exact OK|reflexivity].
  - destruct (d_st s) eqn:ST; cbn [bind] in H; try (injection H as <-; apply moves_same; [exact OK|reflexivity]).
    destruct (negb (d_rdr_full s)) eqn:F.
    + destruct (do_feed s) as [s1| |] eqn:E; cbn [bind] in H; try discriminate H. apply moves_feed in E; [|exact OK]. injection H as <-. eapply moves_then; [exact E|]. destruct (d_rdr_full s1); reflexivity.
    + cbn [bind] in H. injection H as <-. apply moves_same; [exact OK|]. destruct (d_rdr_full s); reflexivity.
  - destruct (do_feed s) as [s1| |] eqn:E; cbn [bind] in H; try discriminate H. apply moves_feed in E; [|exact OK]. injection H as <-. eapply moves_then; [exact E|reflexivity].
  - injection H as <-. apply moves_same; [exact OK|reflexivity].
  - destruct OK as (F & K0 & K1 & R & P). destruct (save_good _ K0) as (c & E & G & ST). rewrite E in H. cbn [bind] in H. injection H as <-.
    split; [repeat split; try apply F; try apply G; try apply K1; try apply R; apply P|]. exists []. split; [|apply punched_refls]. unfold gone. cbn. rewrite !app_nil_r. split; [exact ST|reflexivity].
  - destruct OK as (F & K0 & K1 & R & P). destruct (save_good _ K0) as (c & E & G & ST). rewrite E in H. cbn [bind] in H. injection H as <-.
    split; [repeat split; try apply F; try apply G; try apply K1; try apply R; apply P|]. exists []. split; [|apply punched_refls]. unfold gone. cbn. rewrite !app_nil_r. split; [exact ST|reflexivity].
Qed.
Lemma fire_moves s k s' : cards_ok s -> fire s k = Ok s' -> moves s s'.
Proof.
  intros OK0 H. unfold fire in H. destruct (existsb _ _); [|injection H as <-; apply moves_same; [exact OK0|reflexivity]].
  apply (moves_after s (cancel_ev k s)); [exact OK0|reflexivity|]. assert (OK : cards_ok (cancel_ev k s)) by exact OK0. revert OK H. generalize (cancel_ev k s). clear OK0 s. intros s OK H.
  destruct k.
  - unfold read_cb in H. apply moves_same; [exact OK|]. repeat (match type of H with context [if ?b then _ else _] => destruct b | context [bind (bind ?r _) _] => destruct r | context [bind ?r _] => destruct r end; cbn [bind] in H; try discriminate H); injection H as <-; reflexivity.
  - unfold write_cb in H. destruct (d_data_rdy s).
    + cbv zeta in H. injection H as <-. apply moves_same; [exact OK|]. match goal with |- cs (if ?b then _ else _) = _ => destruct b end; reflexivity.
    + destruct (d_pch_col s <? 80); [|cbn [bind] in H; injection H as <-; apply moves_same; [exact OK|reflexivity]].
      destruct (col (d_pch_card s) (d_pch_col s)) as [v| |] eqn:V; cbn [bind] in H; try discriminate H. destruct (ebcdic_to_hol (d_data s mod 256)) as [h| |] eqn:HH; cbn [bind] in H; try discriminate H.
      injection H as <-. destruct OK as (F & K0 & K1 & R & P). apply hol_range in HH.
      split; [repeat split; try apply F; try apply K0; try apply K1; try apply R; apply (card_col _ _ _ _ P V HH)|]. exists []. unfold gone. cbn. rewrite !app_nil_r. split; [split; reflexivity|].
      unfold path. cbn [set_pch_col set_pch_card d_pch_full d_pch_card d_rdr_full d_rdr_card d_feed]. apply Forall2_app; [|apply punched_refls]. destruct (d_pch_full s); [|constructor]. constructor; [apply (punched_col _ _ _ _ V)|constructor].
  - unfold feed_cb in H. cbv zeta in H. apply (moves_after s (feed_flags s)); [exact OK|reflexivity|]. assert (OK1 : cards_ok (feed_flags s)) by exact OK. revert OK1 H. generalize (feed_flags s). clear OK s. intros s OK H.
    destruct (_ && _).
    + apply moves_feed in H; [|exact OK]. eapply moves_after; [exact OK|reflexivity|exact H].
    + destruct (do_feed s) as [s2| |] eqn:E; cbn [bind] in H; try discriminate H. apply moves_feed in E; [|exact OK]. injection H as <-. eapply moves_then; [exact E|]. destruct (d_sense s2 =? 0); reflexivity.
Qed.
Lemma cs_if (b : bool) x y s : cs x = cs s -> cs y = cs s -> cs (if b then x else y) = cs s.
Proof. destruct b; intros; assumption. Qed.
Ltac csi := repeat match goal with |- cs (if ?b then _ else _) = _ => apply cs_if | |- _ => reflexivity end.
Lemma cs_cmd_end s : cs (cmd_end s) = cs s.
Proof. unfold cmd_end. csi; destruct (d_data_end s); csi. Qed.
Lemma cs_device_cmd s c : cs (device_cmd s c) = cs s.
Proof. unfold device_cmd. cbv zeta. csi; rewrite ?cs_cmd_end; reflexivity. Qed.
Lemma cs_device_stop s : cs (device_stop s) = cs s.
Proof. unfold device_stop. cbv zeta. csi; repeat match goal with |- context [if ?b then _ else _] => destruct b end; reflexivity. Qed.
Lemma cs_disc v s : cs (set_disc v s) = cs s.
Proof. reflexivity. Qed.
Lemma chan_cs a s t bo bi r : dev_step a s t bo bi = Ok r -> cs (fst (fst r)) = cs s.
Proof.
  intros H. unfold dev_step in H. cbv zeta in H. destruct (negb (opro t) && negb (supo t)); [injection H as <-; reflexivity|].
  destruct (d_st s);
    repeat (match type of H with
      | (if ?b then _ else _) = _ => destruct b
      | bind (if ?b then _ else _) _ = _ => destruct b
      | bind (bind ?r _) _ = _ => destruct r
      | bind ?r _ = _ => destruct r end; cbn [bind] in H; try discriminate H);
    injection H as <-; cbn [fst]; csi; rewrite ?cs_device_cmd; csi; repeat match goal with |- context [cs ?x] => match x with context [if ?b then _ else _] => destruct b end end; csi;
    rewrite cs_disc, cs_device_stop; reflexivity.
Qed.

Lemma step_moves a s x s' : cards_ok s -> keeps_cards x -> astep a s x = Ok s' -> moves s s'.
Proof.
  intros OK K H. destruct x as [t bo bi|k|k]; cbn [astep] in H.
  - destruct (dev_step a s t bo bi) as [r| |] eqn:E; cbn [bind] in H; try discriminate H. injection H as <-. apply moves_same; [exact OK|apply (chan_cs _ _ _ _ _ _ E)].
  - apply (fire_moves s k s' OK H).
  - apply (key_moves s k s' OK K H).
Qed.
Lemma run_moves a : forall l s s', cards_ok s -> Forall keeps_cards l -> run a s l = Ok s' -> moves s s'.
Proof.
  induction l as [|x l IH]; intros s s' OK K H; cbn [run] in H; [injection H as <-; apply moves_same; [exact OK|reflexivity]|].
  inversion K; subst. destruct (astep a s x) as [s1| |] eqn:E; cbn [bind] in H; try discriminate H. apply step_moves in E; [|assumption|assumption].
  eapply moves_trans; [exact E|]. apply IH; [apply E|assumption|exact H].
Qed.
