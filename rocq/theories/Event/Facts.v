From Verif Require Import Base.Outcome Event.Model Event.Spec Event.Proofs.

Lemma call_eqb_refl c : call_eqb c c = true.
Proof. unfold call_eqb. rewrite !Z.eqb_refl. reflexivity. Qed.

Lemma call_eqb_eq a b : call_eqb a b = true <-> a = b.
Proof.
  unfold call_eqb. destruct a, b; simpl. rewrite !andb_true_iff, !Z.eqb_eq. split.
  - intros [[[-> ->] ->] ->]. reflexivity.
  - intros E. injection E. auto.
Qed.

Definition pcnt (k : Z) (c : call) (l : list (Z * call)) : nat :=
  length (filter (fun e => (fst e =? k) && call_eqb (snd e) c) l).

Lemma pcnt_cons k c e l :
  pcnt k c (e :: l) = Nat.add (if (fst e =? k) && call_eqb (snd e) c then 1%nat else 0%nat) (pcnt k c l).
Proof. unfold pcnt. simpl. destruct (_ && _); reflexivity. Qed.

Lemma pcnt_enqueue k c k' c' l :
  pcnt k c (enqueue k' c' l) = pcnt k c ((k', c') :: l).
Proof.
  induction l as [|[j e] l IH]; [reflexivity|]. simpl enqueue.
  destruct (k' <=? j); [reflexivity|].
  rewrite !pcnt_cons, IH, !pcnt_cons. simpl. lia.
Qed.

Lemma pcnt_dequeue k c d f l : matches d f c = false -> pcnt k c (dequeue d f l) = pcnt k c l.
Proof.
  intros Hm. induction l as [|[j e] l IH]; [reflexivity|]. simpl dequeue.
  unfold pend_match. simpl snd. destruct (matches d f e) eqn:He.
  - rewrite pcnt_cons. simpl. destruct (call_eqb e c) eqn:Ec.
    + apply call_eqb_eq in Ec. subst. congruence.
    + rewrite andb_false_r. reflexivity.
  - rewrite !pcnt_cons, IH. reflexivity.
Qed.

Lemma fired_at_cons k c o l :
  fired_at k c (o :: l) =
  Nat.add (match o with Fired k' c' => if (k' =? k) && call_eqb c' c then 1%nat else 0%nat | _ => 0%nat end) (fired_at k c l).
Proof. unfold fired_at. simpl. destruct o as [| |k' c']; try reflexivity. destruct (_ && _); reflexivity. Qed.

Lemma due_at_cons k c o l :
  due_at k c (o :: l) =
  Nat.add (match o with Added j c' t => if (j + t =? k) && call_eqb c' c then 1%nat else 0%nat | _ => 0%nat end) (due_at k c l).
Proof. unfold due_at. simpl. destruct o as [j c' t| |]; try reflexivity. destruct (_ && _); reflexivity. Qed.

(** ** Bookkeeping invariant of the specification *)
Definition bal (sp : spec) : Prop :=
  (forall c, never_cancelled c (p_log sp) ->
   forall k, due_at k c (p_log sp) = (fired_at k c (p_log sp) + pcnt k c (p_pending sp))%nat) /\
  (forall k c, In (Fired k c) (p_log sp) -> k <= p_now sp).

Section Bal.
Variable cb : list obs -> call -> list op.

Lemma never_cancelled_tail c o l : never_cancelled c (o :: l) -> never_cancelled c l.
Proof. intros H k Hin. apply (H k). right. exact Hin. Qed.

Lemma sexec_bal fuel : forall sp ops sp',
  sexec cb fuel sp ops = Ok sp' -> bal sp -> bal sp' /\ p_now sp' = p_now sp.
Proof.
  induction fuel as [|fuel IH]; intros sp ops sp' E Hb.
  - destruct ops; [|discriminate]. injection E as <-. auto.
  - destruct ops as [|o ops]; [injection E as <-; auto|].
    destruct Hb as [Hb1 Hb2].
    cbn [sexec] in E. destruct o as [c t|d f].
    + destruct (t <? 0) eqn:Ht; [discriminate|]. destruct (t =? 0) eqn:Hz.
      * set (sp1 := Spec _ _ _ _) in E.
        destruct (sexec cb fuel sp1 (cb (p_log sp1) c)) as [sp2| |] eqn:E2; try discriminate.
        cbn [bind] in E.
        assert (Hbal1 : bal sp1).
        { unfold sp1. split; cbn [p_log p_pending p_now].
          - intros c' Hn k. apply never_cancelled_tail, never_cancelled_tail in Hn.
            rewrite due_at_cons, fired_at_cons, due_at_cons, fired_at_cons, (Hb1 c' Hn k).
            replace (p_now sp + t) with (p_now sp) by lia. lia.
          - intros k c' [H|[H|H]]; [injection H as <- <-; lia|discriminate|eauto]. }
        destruct (IH _ _ _ E2 Hbal1) as [Hbal2 Hnow2].
        destruct (IH _ _ _ E Hbal2) as [Hbal3 Hnow3]. split; [exact Hbal3|].
        rewrite Hnow3, Hnow2. reflexivity.
      * set (sp1 := Spec _ _ _ _) in E.
        assert (Hbal1 : bal sp1).
        { unfold sp1. split; cbn [p_log p_pending p_now].
          - intros c' Hn k. apply never_cancelled_tail in Hn.
            rewrite due_at_cons, fired_at_cons, pcnt_enqueue, pcnt_cons, (Hb1 c' Hn k). simpl. lia.
          - intros k c' [H|H]; [discriminate|eauto]. }
        destruct (IH _ _ _ E Hbal1) as [Hbal3 Hnow3]. split; [exact Hbal3|]. exact Hnow3.
    + destruct (cancel_ok sp d f); [|discriminate].
      set (sp1 := Spec _ _ _ _) in E.
      assert (Hbal1 : bal sp1).
      { unfold sp1. split; cbn [p_log p_pending p_now].
        - intros c' Hn k. rewrite due_at_cons, fired_at_cons, pcnt_dequeue.
          + rewrite (Hb1 c'); [simpl; lia|]. eapply never_cancelled_tail; eauto.
          + unfold matches. destruct ((c_dev c' =? d) && (c_func c' =? f)) eqn:Hm; [|reflexivity].
            apply andb_true_iff in Hm. destruct Hm as [Hm1 Hm2].
            apply Z.eqb_eq in Hm1, Hm2. subst. exfalso. apply (Hn (p_now sp)). left. reflexivity.
        - intros k c' [H|H]; [discriminate|eauto]. }
      destruct (IH _ _ _ E Hbal1) as [Hbal3 Hnow3]. split; [exact Hbal3|]. exact Hnow3.
Qed.

Lemma sfire_bal fuel : forall sp sp',
  sfire cb fuel sp = Ok sp' -> bal sp -> bal sp' /\ p_now sp' = p_now sp.
Proof.
  induction fuel as [|fuel IH]; intros sp sp' E Hb; cbn [sfire] in E.
  - destruct (p_pending sp) as [|[k c] r]; [injection E as <-; auto|].
    destruct (k =? p_now sp); [discriminate|injection E as <-; auto].
  - destruct (p_pending sp) as [|[k c] r] eqn:Hp; [injection E as <-; auto|].
    destruct (k =? p_now sp) eqn:Hk; [|injection E as <-; auto].
    set (sp1 := Spec _ _ _ _) in E.
    destruct (sexec cb fuel sp1 (cb (p_log sp1) c)) as [sp2| |] eqn:E2; try discriminate.
    cbn [bind] in E. destruct Hb as [Hb1 Hb2].
    assert (Hbal1 : bal sp1).
    { unfold sp1. split; cbn [p_log p_pending p_now].
      - intros c' Hn k'. apply never_cancelled_tail in Hn.
        rewrite due_at_cons, fired_at_cons, (Hb1 c' Hn k'), Hp, pcnt_cons. simpl.
        replace k with (p_now sp) by lia. lia.
      - intros k' c' [H|H]; [injection H as <- <-; lia|eauto]. }
    destruct (sexec_bal _ _ _ _ E2 Hbal1) as [Hbal2 Hnow2].
    destruct (IH _ _ E) as [Hbal3 Hnow3]; [exact Hbal2|]. split; [exact Hbal3|].
    rewrite Hnow3. exact Hnow2.
Qed.

Lemma sadvance_bal fuel sp sp' :
  sadvance cb fuel sp = Ok sp' -> bal sp -> bal sp' /\ p_now sp' = p_now sp + 1.
Proof.
  unfold sadvance. intros E [Hb1 Hb2].
  destruct (sfire_bal _ _ _ E) as [H1 H2]; [|split; [exact H1|exact H2]].
  split; cbn [p_log p_pending p_now]; [exact Hb1|].
  intros k c Hin. specialize (Hb2 k c Hin). lia.
Qed.

Lemma ticks_cons o h : ticks (o :: h) = (if is_tick o then 1 else 0) + ticks h.
Proof. unfold ticks. simpl filter. destruct (is_tick o); simpl length; lia. Qed.

Lemma srun_bal fuel : forall h sp sp',
  srun cb fuel sp h = Ok sp' -> bal sp -> bal sp' /\ p_now sp' = p_now sp + ticks h.
Proof.
  induction h as [|[o|] h IH]; intros sp sp' E Hb; cbn [srun] in E.
  - injection E as <-. split; [exact Hb|]. unfold ticks. simpl. lia.
  - destruct (sexec cb fuel sp [o]) as [sp1| |] eqn:E1; try discriminate. cbn [bind] in E.
    destruct (sexec_bal _ _ _ _ E1 Hb) as [Hb1 Hn1]. destruct (IH _ _ E Hb1) as [Hb2 Hn2].
    split; [exact Hb2|]. rewrite ticks_cons. cbn [is_tick]. lia.
  - destruct (sadvance cb fuel sp) as [sp1| |] eqn:E1; try discriminate. cbn [bind] in E.
    destruct (sadvance_bal _ _ _ E1 Hb) as [Hb1 Hn1]. destruct (IH _ _ E Hb1) as [Hb2 Hn2].
    split; [exact Hb2|]. rewrite ticks_cons. cbn [is_tick]. lia.
Qed.

Lemma bal_init : bal sinit.
Proof. split; cbn; [reflexivity|tauto]. Qed.

(** ** Adds-only clients stay inside the contract *)
Lemma sexec_adds fuel : cb_adds cb -> forall sp ops, Forall op_add ops -> sexec cb fuel sp ops <> UB.
Proof.
  intros Hcb. induction fuel as [|fuel IH]; intros sp ops Hops; destruct ops as [|o ops]; cbn [sexec]; try discriminate.
  inversion Hops as [|? ? Ho Hr]; subst. destruct o as [c t|d f]; cbn in Ho; [|contradiction].
  replace (t <? 0) with false by lia. destruct (t =? 0).
  - set (sp1 := Spec _ _ _ _). pose proof (IH sp1 _ (Hcb (p_log sp1) c)) as H1.
    destruct (sexec cb fuel sp1 (cb (p_log sp1) c)) as [sp2| |]; cbn [bind]; [|contradiction|discriminate].
    apply IH. exact Hr.
  - apply IH. exact Hr.
Qed.

Lemma sfire_adds fuel : cb_adds cb -> forall sp, sfire cb fuel sp <> UB.
Proof.
  intros Hcb. induction fuel as [|fuel IH]; intros sp; cbn [sfire];
    destruct (p_pending sp) as [|[k c] r]; try discriminate; destruct (k =? p_now sp); try discriminate.
  set (sp1 := Spec _ _ _ _). pose proof (sexec_adds fuel Hcb sp1 _ (Hcb (p_log sp1) c)) as H1.
  destruct (sexec cb fuel sp1 (cb (p_log sp1) c)) as [sp2| |]; cbn [bind]; [|contradiction|discriminate].
  apply IH.
Qed.

Lemma srun_adds fuel : cb_adds cb -> forall h sp, Forall top_add h -> srun cb fuel sp h <> UB.
Proof.
  intros Hcb. induction h as [|[o|] h IH]; intros sp Hh; cbn [srun]; [discriminate| |];
    inversion Hh as [|? ? Ho Hr]; subst.
  - pose proof (sexec_adds fuel Hcb sp [o]) as H1.
    destruct (sexec cb fuel sp [o]); cbn [bind]; [apply IH; exact Hr| |discriminate].
    exfalso. apply H1; [constructor; [exact Ho|constructor]|reflexivity].
  - pose proof (sfire_adds fuel Hcb (Spec (p_pending sp) (p_firing sp) (p_now sp + 1) (p_log sp))) as H1.
    unfold sadvance.
    destruct (sfire cb fuel _); cbn [bind]; [apply IH; exact Hr|contradiction|discriminate].
Qed.

(** ** Logs and foreign calls *)
Definition adds_of (c : call) (lg : list obs) : list obs :=
  filter (fun o => match o with Added _ c' _ => call_eqb c' c | _ => false end) lg.

Lemma sexec_adds_of c fuel : cb_not c cb -> forall sp ops sp', Forall (op_not c) ops ->
  sexec cb fuel sp ops = Ok sp' -> adds_of c (p_log sp') = adds_of c (p_log sp).
Proof.
  intros Hcb. induction fuel as [|fuel IH]; intros sp ops sp' Hops E;
    (destruct ops as [|o ops]; [injection E as <-; reflexivity|]); [discriminate|].
  cbn [sexec] in E.
  inversion Hops as [|? ? Ho Hr]; subst. destruct o as [c' t|d f].
  - cbn in Ho. assert (Hc : call_eqb c' c = false).
    { destruct (call_eqb c' c) eqn:Ec; [|reflexivity]. apply call_eqb_eq in Ec. contradiction. }
    destruct (t <? 0); [discriminate|]. destruct (t =? 0).
    + set (sp1 := Spec _ _ _ _) in E.
      destruct (sexec cb fuel sp1 (cb (p_log sp1) c')) as [sp2| |] eqn:E2; try discriminate.
      cbn [bind] in E. rewrite (IH _ _ _ Hr E), (IH _ _ _ (Hcb _ _) E2).
      unfold sp1. cbn [p_log adds_of filter]. rewrite Hc. reflexivity.
    + rewrite (IH _ _ _ Hr E). cbn [p_log adds_of filter]. rewrite Hc. reflexivity.
  - destruct (cancel_ok sp d f); [|discriminate]. rewrite (IH _ _ _ Hr E). reflexivity.
Qed.

Lemma sfire_adds_of c fuel : cb_not c cb -> forall sp sp',
  sfire cb fuel sp = Ok sp' -> adds_of c (p_log sp') = adds_of c (p_log sp).
Proof.
  intros Hcb. induction fuel as [|fuel IH]; intros sp sp' E; cbn [sfire] in E;
    destruct (p_pending sp) as [|[k c'] r]; try (injection E as <-; reflexivity);
    destruct (k =? p_now sp); try discriminate; try (injection E as <-; reflexivity).
  set (sp1 := Spec _ _ _ _) in E.
  destruct (sexec cb fuel sp1 (cb (p_log sp1) c')) as [sp2| |] eqn:E2; try discriminate.
  cbn [bind] in E. rewrite (IH _ _ E). cbn [p_log]. rewrite (sexec_adds_of c fuel Hcb _ _ _ (Hcb _ _) E2).
  reflexivity.
Qed.

Lemma srun_adds_of c fuel : cb_not c cb -> forall h sp sp', Forall (top_not c) h ->
  srun cb fuel sp h = Ok sp' -> adds_of c (p_log sp') = adds_of c (p_log sp).
Proof.
  intros Hcb. induction h as [|[o|] h IH]; intros sp sp' Hh E; cbn [srun] in E;
    [injection E as <-; reflexivity| |]; inversion Hh as [|? ? Ho Hr]; subst.
  - destruct (sexec cb fuel sp [o]) as [sp1| |] eqn:E1; try discriminate. cbn [bind] in E.
    rewrite (IH _ _ Hr E). apply (sexec_adds_of c fuel Hcb _ _ _ ltac:(constructor; [exact Ho|constructor]) E1).
  - destruct (sadvance cb fuel sp) as [sp1| |] eqn:E1; try discriminate. cbn [bind] in E.
    rewrite (IH _ _ Hr E). apply (sfire_adds_of c fuel Hcb _ _ E1).
Qed.

Lemma srun_app fuel h1 h2 sp :
  srun cb fuel sp (h1 ++ h2) = let* s := srun cb fuel sp h1 in srun cb fuel s h2.
Proof.
  revert sp; induction h1 as [|[o|] h1 IH]; intros sp; cbn [srun app bind]; [reflexivity| |].
  - destruct (sexec cb fuel sp [o]); cbn [bind]; auto.
  - destruct (sadvance cb fuel sp); cbn [bind]; auto.
Qed.

Lemma due_at_adds_of k c lg : due_at k c lg = due_at k c (adds_of c lg).
Proof.
  induction lg as [|o lg IH]; [reflexivity|]. rewrite due_at_cons, IH.
  destruct o as [j c' t| |]; cbn [adds_of filter]; try reflexivity.
  destruct (call_eqb c' c) eqn:E; [rewrite due_at_cons, E; reflexivity|].
  rewrite andb_false_r. reflexivity.
Qed.

(** ** From the memory to the pending list *)
Lemma walk_chain h : forall l p b fuel, chain h p l None -> (length l <= fuel)%nat ->
  walk fuel h (hd_addr l None) b = Some (absl b l).
Proof.
  induction l as [|[a [t c]] l IH]; intros p b fuel Hc Hf.
  - destruct fuel; reflexivity.
  - cbn [chain] in Hc. destruct Hc as [Ha Hl]. destruct fuel as [|fuel]; [simpl in Hf; lia|].
    cbn [walk hd_addr]. rewrite Ha. cbn [n_next n_time n_call].
    rewrite (IH _ (b + t) fuel Hl) by (simpl in Hf; lia). reflexivity.
Qed.

Lemma Rel_pending m s sp l : Rel m None s sp l -> p_firing sp = None -> pending_of s = Some (p_pending sp).
Proof.
  intros R Hf. unfold pending_of. rewrite (R_head _ _ _ _ _ R).
  rewrite (walk_chain _ l None); [|apply (R_chain _ _ _ _ _ R)|].
  - rewrite (R_abs _ _ _ _ _ R). unfold full. rewrite Hf. reflexivity.
  - eapply chain_length_le; [apply (R_chain _ _ _ _ _ R)|apply (R_nodup _ _ _ _ _ R)].
Qed.

Lemma absl_gt b l : nonneg l -> hd_ge 1 l -> Forall (fun e => b < fst e) (absl b l).
Proof.
  intros Hn Hh. destruct l as [|[a [d c]] l]; [constructor|]. cbn [hd_ge] in Hh.
  assert (H : forall l x, nonneg l -> b < x -> Forall (fun e => b < fst e) (absl x l)).
  { clear. induction l as [|[a [d c]] l IH]; intros x Hn Hx; [constructor|].
    inversion Hn as [|? ? Hd Hr]; subst. cbn in Hd. cbn [absl]. constructor; [cbn; lia|]. apply IH; [exact Hr|lia]. }
  inversion Hn as [|? ? Hd Hr]; subst. cbn [absl]. constructor; [cbn; lia|]. apply H; [exact Hr|lia].
Qed.

Lemma Rel_pending_gt s sp l : Rel 1 None s sp l -> p_firing sp = None ->
  Forall (fun e => s_now s < fst e) (p_pending sp).
Proof.
  intros R Hf. pose proof (R_abs _ _ _ _ _ R) as Ha. unfold full in Ha. rewrite Hf in Ha. rewrite <- Ha.
  apply absl_gt; [apply (R_nonneg _ _ _ _ _ R)|apply (R_m _ _ _ _ _ R Hf)].
Qed.

Lemma pcnt_0 k c b l : Forall (fun e => b < fst e) l -> k <= b -> pcnt k c l = 0%nat.
Proof.
  intros H Hk. induction H as [|[j e] l Hj Hl IH]; [reflexivity|].
  rewrite pcnt_cons, IH. cbn in *. replace (j =? k) with false by lia. reflexivity.
Qed.

(** ** C01 *)
Lemma run_counts fuel h sp :
  srun cb fuel sinit h = Ok sp ->
  exists s, run cb fuel init_event h = Ok s /\ s_now s = ticks h /\ s_log s = p_log sp /\
    pending_of s = Some (p_pending sp) /\
    (forall c, never_cancelled c (s_log s) -> forall k, k <= s_now s ->
       fired_at k c (s_log s) = due_at k c (s_log s)) /\
    (forall c k, s_now s < k -> fired_at k c (s_log s) = 0%nat).
Proof.
  intros E. pose proof (run_sim cb fuel h _ _ _ Rel_init eq_refl) as H. rewrite E in H.
  destruct H as [s [l [Er [R Hf]]]]. exists s. split; [exact Er|].
  destruct (srun_bal _ _ _ _ E bal_init) as [[Hb1 Hb2] Hn].
  pose proof (R_now _ _ _ _ _ R) as Hnow. pose proof (R_log _ _ _ _ _ R) as Hlog.
  cbn in Hn. split; [lia|]. split; [exact Hlog|]. split; [eapply Rel_pending; eauto|]. split.
  - intros c Hc k Hk. rewrite Hlog in *. rewrite (Hb1 c Hc k).
    rewrite (pcnt_0 k c (s_now s)); [lia| |lia]. eapply Rel_pending_gt; eauto.
  - intros c k Hk. rewrite Hlog. unfold fired_at.
    destruct (filter _ (p_log sp)) as [|o r] eqn:Ef; [reflexivity|].
    assert (Hin : In o (o :: r)) by (left; reflexivity). rewrite <- Ef in Hin.
    apply filter_In in Hin. destruct Hin as [Hin Ho]. destruct o as [| |k' c']; try discriminate.
    apply andb_true_iff in Ho. destruct Ho as [Ho _]. apply Z.eqb_eq in Ho. subst k'.
    specialize (Hb2 k c' Hin). lia.
Qed.

Lemma run_inv fuel h s : run cb fuel init_event h = Ok s -> srun cb fuel sinit h <> UB ->
  exists sp, srun cb fuel sinit h = Ok sp.
Proof.
  intros E Hu. pose proof (run_sim cb fuel h _ _ _ Rel_init eq_refl) as H.
  destruct (srun cb fuel sinit h) as [sp| |]; [eauto|contradiction|congruence].
Qed.

Lemma one_event_on_time fuel h1 c t h2 s :
  cb_adds cb -> Forall top_add h1 -> Forall top_add h2 -> 0 < t ->
  cb_not c cb -> Forall (top_not c) h1 -> Forall (top_not c) h2 ->
  run cb fuel init_event (h1 ++ Do (Add c t) :: h2) = Ok s ->
  forall k, fired_at k c (s_log s) = if (k =? ticks h1 + t) && (t <=? ticks h2) then 1%nat else 0%nat.
Proof.
  intros Hcb Ha1 Ha2 Ht Hn Hn1 Hn2 Er k.
  assert (Hall : Forall top_add (h1 ++ Do (Add c t) :: h2)).
  { apply Forall_app. split; [exact Ha1|]. constructor; [cbn; lia|exact Ha2]. }
  destruct (run_inv _ _ _ Er (srun_adds fuel Hcb _ _ Hall)) as [sp E].
  destruct (run_counts _ _ _ E) as [s' [Er' [Hnow [Hlog [_ [Hc1 Hc2]]]]]].
  rewrite Er in Er'. injection Er' as <-.
  assert (Htk : ticks (h1 ++ Do (Add c t) :: h2) = ticks h1 + ticks h2).
  { unfold ticks. rewrite filter_app, app_length. simpl. lia. }
  assert (Hadds : adds_of c (s_log s) = [Added (ticks h1) c t]).
  { rewrite Hlog. rewrite srun_app in E.
    destruct (srun cb fuel sinit h1) as [sp1| |] eqn:E1; try discriminate. cbn [bind] in E.
    destruct (srun_bal _ _ _ _ E1 bal_init) as [_ Hnow1]. cbn [p_now sinit] in Hnow1.
    cbn [srun] in E. destruct (sexec cb fuel sp1 [Add c t]) as [sp2| |] eqn:E2; try discriminate. cbn [bind] in E.
    rewrite (srun_adds_of c fuel Hn _ _ _ Hn2 E).
    destruct fuel as [|fuel]; [discriminate|]. cbn [sexec] in E2.
    replace (t <? 0) with false in E2 by lia. replace (t =? 0) with false in E2 by lia.
    assert (E2' : Spec (enqueue (p_now sp1 + t) c (p_pending sp1)) (p_firing sp1) (p_now sp1)
                    (Added (p_now sp1) c t :: p_log sp1) = sp2) by (destruct fuel; cbn in E2; congruence).
    rewrite <- E2'. cbn [p_log adds_of filter]. rewrite call_eqb_refl.
    replace (p_now sp1) with (ticks h1) by lia. f_equal.
    change (filter _ (p_log sp1)) with (adds_of c (p_log sp1)).
    rewrite (srun_adds_of c (S fuel) Hn _ _ _ Hn1 E1). reflexivity. }
  destruct (Z.le_gt_cases k (s_now s)) as [Hk|Hk].
  - rewrite Hc1; [|intros k' Hin|exact Hk].
    + rewrite due_at_adds_of, Hadds, due_at_cons, call_eqb_refl, andb_true_r. unfold due_at. simpl.
      destruct (ticks h1 + t =? k) eqn:Ek; destruct (k =? ticks h1 + t) eqn:Ek2; try lia; simpl; [|reflexivity].
      replace (t <=? ticks h2) with true by lia. reflexivity.
    + (* no cancel in an adds-only log *)
      assert (Hno : forall lg, (forall k d f, ~ In (Cancelled k d f) lg) -> True) by auto.
      clear Hno. rewrite Hlog in Hin.
      assert (Hnc : forall k d f, ~ In (Cancelled k d f) (p_log sp)).
      { clear - E Hcb Hall.
        assert (Hx : forall fu sp ops sp', Forall op_add ops -> sexec cb fu sp ops = Ok sp' ->
                  no_cancel (p_log sp) -> no_cancel (p_log sp')).
        { induction fu as [|fu IH]; intros sp0 ops sp' Ho E0 Hnc;
            (destruct ops as [|o ops]; [injection E0 as <-; exact Hnc|]); [discriminate|].
          inversion Ho as [|? ? Ho1 Hr]; subst. destruct o as [c0 t0|]; [|contradiction Ho1].
          cbn [sexec] in E0. destruct (t0 <? 0); [discriminate|]. destruct (t0 =? 0).
          - set (sp1 := Spec _ _ _ _) in E0.
            destruct (sexec cb fu sp1 (cb (p_log sp1) c0)) as [sp2| |] eqn:E2; try discriminate.
            cbn [bind] in E0. eapply IH; [exact Hr|exact E0|].
            eapply IH; [apply Hcb|exact E2|]. unfold sp1. cbn.
            intros k d f [H|[H|H]]; [discriminate|discriminate|]. eapply Hnc; eauto.
          - eapply IH; [exact Hr|exact E0|]. intros k d f [H|H]; [discriminate|]. eapply Hnc; eauto. }
        assert (Hy : forall fu sp sp', sfire cb fu sp = Ok sp' -> no_cancel (p_log sp) -> no_cancel (p_log sp')).
        { induction fu as [|fu IH]; intros sp0 sp' E0 Hnc; cbn [sfire] in E0;
            destruct (p_pending sp0) as [|[k c'] r]; try (injection E0 as <-; exact Hnc);
            destruct (k =? p_now sp0); try discriminate; try (injection E0 as <-; exact Hnc).
          set (sp1 := Spec _ _ _ _) in E0.
          destruct (sexec cb fu sp1 (cb (p_log sp1) c')) as [sp2| |] eqn:E2; try discriminate.
          cbn [bind] in E0. eapply IH; [exact E0|]. cbn.
          eapply Hx; [apply Hcb|exact E2|]. intros k0 d f [H|H]; [discriminate|]. eapply Hnc; eauto. }
        assert (Hz : forall h sp sp', Forall top_add h -> srun cb fuel sp h = Ok sp' ->
                  no_cancel (p_log sp) -> no_cancel (p_log sp')).
        { induction h as [|[o|] h IH]; intros sp0 sp' Hh E0 Hnc; cbn [srun] in E0;
            [injection E0 as <-; exact Hnc| |]; inversion Hh as [|? ? Ho Hr]; subst.
          - destruct (sexec cb fuel sp0 [o]) as [sp1| |] eqn:E1; try discriminate. cbn [bind] in E0.
            eapply IH; [exact Hr|exact E0|]. eapply Hx; [|exact E1|exact Hnc].
            constructor; [exact Ho|constructor].
          - destruct (sadvance cb fuel sp0) as [sp1| |] eqn:E1; try discriminate. cbn [bind] in E0.
            eapply IH; [exact Hr|exact E0|]. eapply Hy; [exact E1|exact Hnc]. }
        eapply Hz; [exact Hall|exact E|]. intros k d f []. }
      eapply Hnc; eauto.
  - rewrite Hc2 by lia. destruct (k =? ticks h1 + t) eqn:Ek; simpl; [|reflexivity].
    replace (t <=? ticks h2) with false by lia. reflexivity.
Qed.
End Bal.
