From Verif Require Import Base.Outcome Event.Model Event.Spec.

(** ** Representation of the doubly linked list *)
Notation item := (nat * (Z * call))%type.

Definition hd_addr (l : list item) (n : option nat) : option nat :=
  match l with [] => n | (a, _) :: _ => Some a end.

Definition last_addr (l : list item) (n : option nat) : option nat :=
  fold_left (fun _ e => Some (fst e)) l n.

Fixpoint chain (h : heap) (p : option nat) (l : list item) (n : option nat) : Prop :=
  match l with
  | [] => True
  | (a, (t, c)) :: r => load h a = Some (Node (hd_addr r n) p t c) /\ chain h (Some a) r n
  end.

Definition addrs (l : list item) := map fst l.

Lemma chain_app h p l1 l2 n :
  chain h p (l1 ++ l2) n <-> chain h p l1 (hd_addr l2 n) /\ chain h (last_addr l1 p) l2 n.
Proof.
  revert p; induction l1 as [|[a [t c]] l1 IH]; intros p; simpl; [tauto|].
  rewrite IH. destruct l1 as [|[b e] l1]; simpl; tauto.
Qed.

Lemma chain_frame h h' p l n :
  (forall a, In a (addrs l) -> load h' a = load h a) -> chain h p l n -> chain h' p l n.
Proof.
  revert p; induction l as [|[a [t c]] l IH]; intros p Hf; simpl; [tauto|].
  intros [H1 H2]. split.
  - rewrite Hf; [exact H1 | left; reflexivity].
  - apply IH; [|exact H2]. intros b Hb. apply Hf. right. exact Hb.
Qed.

Lemma load_lt h a n : load h a = Some n -> (a < length h)%nat.
Proof. unfold load. intros H. apply nth_error_Some. destruct (nth_error h a); congruence. Qed.

Lemma load_store_same h a n : (a < length h)%nat -> load (store h a n) a = Some n.
Proof. intros H. unfold load, store. rewrite upd_same; auto. Qed.

Lemma load_store_other h a b n : a <> b -> load (store h a n) b = load h b.
Proof. intros H. unfold load, store. rewrite upd_other; auto. Qed.

Lemma load_release_other h a b : a <> b -> load (release h a) b = load h b.
Proof. intros H. unfold load, release. rewrite upd_other; auto. Qed.

Lemma load_release_same h a : load (release h a) a = None.
Proof.
  unfold load, release. destruct (Nat.lt_ge_cases a (length h)) as [H|H].
  - rewrite upd_same; auto.
  - assert (E : nth_error (upd h a None) a = None).
    { apply nth_error_None. rewrite upd_length. lia. }
    rewrite E. reflexivity.
Qed.

Lemma store_length h a n : length (store h a n) = length h.
Proof. apply upd_length. Qed.
Lemma release_length h a : length (release h a) = length h.
Proof. apply upd_length. Qed.

Lemma chain_addr_lt h p l n a : chain h p l n -> In a (addrs l) -> (a < length h)%nat.
Proof.
  revert p; induction l as [|[b [t c]] l IH]; intros p; simpl; [tauto|].
  intros [H1 H2] [<-|Hin]; [eapply load_lt; eauto | eapply IH; eauto].
Qed.

Lemma last_addr_snoc l e p : last_addr (l ++ [e]) p = Some (fst e).
Proof. unfold last_addr. rewrite fold_left_app. reflexivity. Qed.

Lemma last_addr_app l1 l2 p : last_addr (l1 ++ l2) p = last_addr l2 (last_addr l1 p).
Proof. unfold last_addr. apply fold_left_app. Qed.

Lemma addrs_app l1 l2 : addrs (l1 ++ l2) = addrs l1 ++ addrs l2.
Proof. apply map_app. Qed.

(** Change of the next pointer of the last node of a segment. *)
Lemma chain_set_next h p pre q t c n m :
  chain h p (pre ++ [(q, (t, c))]) n -> ~ In q (addrs pre) ->
  load h q = Some (Node n (last_addr pre p) t c) /\
  chain (store h q (Node m (last_addr pre p) t c)) p (pre ++ [(q, (t, c))]) m.
Proof.
  intros H Hq. apply chain_app in H. destruct H as [H1 [H2 _]]. split; [exact H2|].
  apply chain_app. split.
  - eapply chain_frame; [|exact H1]. intros a Ha. apply load_store_other.
    intros ->. contradiction.
  - simpl. split; [|exact I]. apply load_store_same. eapply load_lt; eauto.
Qed.

(** ** Insertion *)
Fixpoint ins (new : nat) (t : Z) (c : call) (l : list item) : list item :=
  match l with
  | [] => [(new, (t, c))]
  | (a, (d, c')) :: r =>
    if t <=? d then (new, (t, c)) :: (a, (d - t, c')) :: r
    else (a, (d, c')) :: ins new (t - d) c r
  end.

Lemma ins_addrs new t c l : forall a, In a (addrs (ins new t c l)) <-> a = new \/ In a (addrs l).
Proof.
  revert t; induction l as [|[b [d c']] l IH]; intros t a; simpl; [intuition congruence|].
  destruct (t <=? d); simpl.
  - intuition congruence.
  - rewrite IH. intuition congruence.
Qed.

Lemma ins_NoDup new t c l : NoDup (addrs l) -> ~ In new (addrs l) -> NoDup (addrs (ins new t c l)).
Proof.
  revert t; induction l as [|[b [d c']] l IH]; intros t Hn Hnew; simpl.
  - constructor; [intros []|constructor].
  - simpl in *. inversion Hn as [|? ? Hb Hl]; subst. destruct (t <=? d); simpl.
    + constructor; [simpl; tauto|]. constructor; assumption.
    + constructor.
      * intros Hin. apply ins_addrs in Hin. destruct Hin as [->|Hin]; [tauto|contradiction].
      * apply IH; tauto.
Qed.

Lemma NoDup_app_inv {A} (l1 l2 : list A) :
  NoDup (l1 ++ l2) -> NoDup l1 /\ NoDup l2 /\ (forall a, In a l1 -> In a l2 -> False).
Proof.
  induction l1 as [|x l1 IH]; simpl; intros H.
  - repeat split; [constructor|exact H|intros a []].
  - inversion H as [|? ? Hx Hl]; subst. destruct (IH Hl) as [H1 [H2 H3]].
    rewrite in_app_iff in Hx. repeat split.
    + constructor; tauto.
    + exact H2.
    + intros a [->|Ha] Hb; [tauto|eauto].
Qed.

Lemma snoc_case {A} (l : list A) : l = [] \/ exists r x, l = r ++ [x].
Proof.
  destruct l as [|a l]; [left; reflexivity|right].
  destruct (exists_last (l:=a :: l)) as [r [x E]]; [discriminate|]. eauto.
Qed.

Lemma add_loop_ok fuel : forall h tl new c t p d cp pre post,
  chain h None (pre ++ (p, (d, cp)) :: post) None ->
  NoDup (addrs (pre ++ (p, (d, cp)) :: post)) ->
  ~ In new (addrs (pre ++ (p, (d, cp)) :: post)) ->
  (new < length h)%nat ->
  tl = last_addr (pre ++ (p, (d, cp)) :: post) None ->
  (length post < fuel)%nat ->
  exists h', 
    add_loop fuel h (hd_addr (pre ++ (p, (d, cp)) :: post) None) tl new c t p =
      Ok (h', hd_addr (pre ++ ins new t c ((p, (d, cp)) :: post)) None,
          last_addr (pre ++ ins new t c ((p, (d, cp)) :: post)) None) /\
    chain h' None (pre ++ ins new t c ((p, (d, cp)) :: post)) None /\
    length h' = length h.
Proof.
  induction fuel as [|fuel IH]; intros h tl new c t p d cp pre post Hc Hnd Hnew Hlt Htl Hfuel; [lia|].
  pose proof Hc as Hc0.
  apply chain_app in Hc. destruct Hc as [Hpre Hp]. cbn [chain] in Hp. destruct Hp as [Hp Hpost].
  cbn [add_loop]. rewrite Hp. cbn [n_time n_prev n_next n_call].
  rewrite addrs_app in Hnd, Hnew. cbn [addrs map fst] in Hnd, Hnew.
  apply NoDup_app_inv in Hnd. destruct Hnd as [Hnd1 [Hnd2 Hdis]].
  rewrite in_app_iff in Hnew. cbn [In] in Hnew.
  inversion Hnd2 as [|? ? Hpn Hnd3]; subst.
  assert (Hpl : (p < length h)%nat) by (eapply load_lt; eauto).
  cbn [ins]. destruct (t <=? d) eqn:Htd.
  - (* insert in front of p *)
    set (h1 := store h new (Node (Some p) (last_addr pre None) t c)).
    set (h2 := store h1 p (Node (hd_addr post None) (Some new) (d - t) cp)).
    assert (Hl2 : length h2 = length h) by (unfold h2, h1; rewrite !store_length; reflexivity).
    assert (Hfr : forall a, a <> new -> a <> p -> load h2 a = load h a).
    { intros a Ha Hb. unfold h2, h1. rewrite !load_store_other; auto. }
    assert (Hnew2 : load h2 new = Some (Node (Some p) (last_addr pre None) t c)).
    { unfold h2. rewrite load_store_other by (intros ->; tauto). unfold h1. apply load_store_same; auto. }
    assert (Hp2 : load h2 p = Some (Node (hd_addr post None) (Some new) (d - t) cp)).
    { unfold h2. apply load_store_same. unfold h1. rewrite store_length. auto. }
    assert (Hpost2 : chain h2 (Some p) post None).
    { eapply chain_frame; [|exact Hpost]. intros a Ha. apply Hfr; [|]; intros ->; tauto. }
    destruct (snoc_case pre) as [->|[pr [[q [tq cq]] ->]]].
    + simpl. exists h2. split; [reflexivity|]. split; [|exact Hl2].
      simpl in Hnew2. auto.
    + rewrite last_addr_snoc. cbn [fst].
      rewrite !addrs_app in *. cbn [addrs map fst] in *.
      rewrite last_addr_snoc in *. cbn [fst] in *.
      apply NoDup_app_inv in Hnd1. destruct Hnd1 as [Hndr [_ Hdisr]].
      assert (Hqp : q <> p). { intros ->. apply (Hdis p); [apply in_or_app; right; left; reflexivity|left; reflexivity]. }
      assert (Hqnew : q <> new). { intros ->. apply Hnew. left. apply in_or_app; right; left; reflexivity. }
      assert (Hchpre2 : chain h2 None (pr ++ [(q, (tq, cq))]) (Some p)).
      { eapply chain_frame; [|exact Hpre]. intros a Ha. apply Hfr; intros ->.
        - apply Hnew. left. rewrite addrs_app in Ha. exact Ha.
        - apply (Hdis p); [rewrite addrs_app in Ha; exact Ha|left; reflexivity]. }
      destruct (chain_set_next _ _ _ _ _ _ _ (Some new) Hchpre2) as [Hq Hch3].
      { intros Hin. apply (Hdisr q); [exact Hin|left; reflexivity]. }
      rewrite Hq. cbn [set_next n_prev n_time n_call].
      set (h3 := store h2 q (Node (Some new) (last_addr pr None) tq cq)) in *.
      exists h3. split; [|split].
      * f_equal. f_equal; [f_equal|].
        -- destruct pr as [|[b e] pr]; reflexivity.
        -- rewrite !last_addr_app. reflexivity.
      * apply chain_app. split; [exact Hch3|]. rewrite last_addr_snoc. cbn [fst chain hd_addr].
        unfold h3. repeat split.
        -- rewrite load_store_other; auto.
        -- rewrite load_store_other; auto.
        -- eapply chain_frame; [|exact Hpost2]. intros a Ha. apply load_store_other. intros ->.
           apply (Hdis a); [apply in_or_app; right; left; reflexivity|right; exact Ha].
      * unfold h3. rewrite store_length. exact Hl2.
  - (* move on *)
    destruct post as [|[p' [d' cp']] post]; cbn [hd_addr].
    + (* append *)
      rewrite last_addr_snoc. cbn [fst].
      set (whole := pre ++ [(p, (d, cp))]).
      set (h1 := store h new (Node None (Some p) (t - d) c)).
      assert (Hpp1 : chain h1 None whole None).
      { eapply chain_frame; [|exact Hc0]. intros a Ha. apply load_store_other. intros ->.
        apply Hnew. unfold whole in Ha. rewrite addrs_app in Ha. apply in_app_or in Ha. simpl in Ha. tauto. }
      destruct (chain_set_next _ _ _ _ _ _ _ (Some new) Hpp1) as [Hq Hch3].
      { intros Hin. apply (Hdis p); [exact Hin|left; reflexivity]. }
      rewrite Hq. cbn [set_next n_prev n_time n_call].
      eexists. split; [|split].
      * f_equal. f_equal; [f_equal|].
        -- cbn [ins]. destruct pre as [|[b e] pre]; reflexivity.
        -- cbn [ins]. rewrite !last_addr_app. reflexivity.
      * cbn [ins].
        change ((p, (d, cp)) :: [(new, (t - d, c))]) with ([(p, (d, cp))] ++ [(new, (t - d, c))]).
        rewrite app_assoc. apply chain_app. split; [exact Hch3|].
        rewrite last_addr_snoc. cbn [chain hd_addr fst]. split; [|exact I].
        rewrite load_store_other by (intros ->; tauto).
        unfold h1. apply load_store_same. exact Hlt.
      * unfold h1. rewrite !store_length. reflexivity.
    + specialize (IH h (last_addr (pre ++ (p, (d, cp)) :: (p', (d', cp')) :: post) None) new c (t - d) p' d' cp' (pre ++ [(p, (d, cp))]) post).
      rewrite <- !app_assoc in IH. cbn [app] in IH.
      destruct IH as [h' [E [Hch Hlen]]].
      * exact Hc0.
      * rewrite addrs_app. cbn [addrs map fst]. 
        clear - Hnd1 Hnd2 Hdis.
        induction pre as [|x pre IHp]; simpl in *; [exact Hnd2|].
        inversion Hnd1; subst. constructor.
        -- rewrite in_app_iff. intros [Hx|Hx]; [contradiction|]. apply (Hdis (fst x)); [left; reflexivity|exact Hx].
        -- apply IHp; [assumption|]. intros a Ha Hb. apply (Hdis a); [right; exact Ha|exact Hb].
      * rewrite addrs_app, in_app_iff. simpl. simpl in Hnew. tauto.
      * exact Hlt.
      * reflexivity.
      * simpl in Hfuel. lia.
      * exists h'. split; [|split; [exact Hch|exact Hlen]].
        exact E.
Qed.

(** ** Refinement relation *)
Fixpoint absl (b : Z) (l : list item) : list (Z * call) :=
  match l with [] => [] | (_, (d, c)) :: r => (b + d, c) :: absl (b + d) r end.

Lemma absl_ins b new t c l : absl b (ins new t c l) = enqueue (b + t) c (absl b l).
Proof.
  revert b t; induction l as [|[a [d c']] l IH]; intros b t; simpl; [reflexivity|].
  destruct (t <=? d) eqn:E; simpl.
  - replace (b + t <=? b + d) with true by lia.
    replace (b + t + (d - t)) with (b + d) by lia. reflexivity.
  - replace (b + t <=? b + d) with false by lia. rewrite IH.
    replace (b + d + (t - d)) with (b + t) by lia. reflexivity.
Qed.

Definition nonneg (l : list item) : Prop := Forall (fun i => 0 <= fst (snd i)) l.
Definition hd_ge (m : Z) (l : list item) : Prop :=
  match l with [] => True | (_, (d, _)) :: _ => m <= d end.

Lemma ins_nonneg new t c l : 0 <= t -> nonneg l -> nonneg (ins new t c l).
Proof.
  unfold nonneg. revert t; induction l as [|[a [d c']] l IH]; intros t Ht Hl; simpl.
  - constructor; [exact Ht|constructor].
  - inversion Hl as [|? ? Hd Hr]; subst. simpl in Hd. destruct (t <=? d) eqn:E.
    + constructor; [exact Ht|]. constructor; [simpl; lia|exact Hr].
    + constructor; [exact Hd|]. apply IH; [lia|exact Hr].
Qed.

Definition full (sp : spec) : list (Z * call) :=
  match p_firing sp with Some c => (p_now sp, c) :: p_pending sp | None => p_pending sp end.

(** [l] is the list in memory; [fa] is the address of the node advance() is working on. *)
Record Rel (m : Z) (fa : option nat) (s : sched) (sp : spec) (l : list item) : Prop := {
  R_chain : chain (s_heap s) None l None;
  R_nodup : NoDup (addrs l);
  R_head : s_head s = hd_addr l None;
  R_tail : s_tail s = last_addr l None;
  R_nonneg : nonneg l;
  R_now : s_now s = p_now sp;
  R_log : s_log s = p_log sp;
  R_abs : absl (s_now s) l = full sp;
  R_m : p_firing sp = None -> hd_ge m l;
  R_fa : p_firing sp <> None -> hd_addr l None = fa }.

Lemma addrs_length l : length (addrs l) = length l.
Proof. apply map_length. Qed.

Lemma chain_length_le h p l n : chain h p l n -> NoDup (addrs l) -> (length l <= length h)%nat.
Proof.
  intros Hc Hn. rewrite <- (addrs_length l), <- (seq_length (length h) 0).
  apply NoDup_incl_length; [exact Hn|]. intros a Ha. apply in_seq.
  pose proof (chain_addr_lt _ _ _ _ _ Hc Ha). lia.
Qed.

Lemma chain_alloc h x p l n : chain h p l n -> chain (h ++ [x]) p l n.
Proof.
  intros H. eapply chain_frame; [|exact H]. intros a Ha.
  pose proof (chain_addr_lt _ _ _ _ _ H Ha). unfold load. rewrite nth_error_app1; auto.
Qed.

Lemma add_event_sim m fa s sp l c t :
  Rel m fa s sp l -> 0 < t -> m <= 1 ->
  exists s' l', add_event s c t = Ok s' /\
    Rel m fa s' (Spec (enqueue (p_now sp + t) c (p_pending sp)) (p_firing sp) (p_now sp)
                     (Added (p_now sp) c t :: p_log sp)) l'.
Proof.
  intros R Ht Hm. destruct R as [Hch Hnd Hhd Htl Hnn Hnow Hlog Habs HRm Hfa].
  unfold add_event. rewrite Hhd.
  set (new := length (s_heap s)). set (h0 := s_heap s ++ [Some (Node None None t c)]).
  assert (Hnewl : (new < length h0)%nat) by (unfold new, h0; rewrite app_length; simpl; lia).
  assert (Hch0 : chain h0 None l None) by (apply chain_alloc; exact Hch).
  assert (Hnewin : ~ In new (addrs l)).
  { intros Hin. pose proof (chain_addr_lt _ _ _ _ _ Hch Hin). unfold new in *. lia. }
  destruct l as [|[p [d cp]] post].
  - (* empty *)
    cbn [hd_addr]. eexists _, [(new, (t, c))]. split; [reflexivity|].
    cbn [absl full] in Habs. unfold full in Habs.
    assert (Hf : p_firing sp = None) by (destruct (p_firing sp); [discriminate|reflexivity]).
    rewrite Hf in Habs.
    split; cbn [s_heap s_head s_tail s_now s_log p_pending p_firing p_now p_log]; auto.
    + cbn [chain hd_addr]. split; [|exact I]. unfold load, h0, new.
      rewrite nth_error_app2 by lia. rewrite Nat.sub_diag. reflexivity.
    + constructor; [intros []|constructor].
    + constructor; [simpl; lia|constructor].
    + rewrite Hlog, Hnow. reflexivity.
    + unfold full. cbn [p_firing p_pending p_now]. rewrite Hf, <- Habs. cbn. rewrite Hnow. reflexivity.
    + intros _. simpl. lia.
    + rewrite Hf. congruence.
  - cbn [hd_addr].
    destruct (add_loop_ok (S (length h0)) h0 (s_tail s) new c t p d cp [] post) as [h' [E [Hc' Hlen]]]; auto.
    { pose proof (chain_length_le _ _ _ _ Hch0 Hnd) as Hl. simpl in Hl. lia. }
    cbn [app hd_addr] in E. rewrite E. cbn [bind].
    eexists _, (ins new t c ((p, (d, cp)) :: post)). split; [reflexivity|].
    cbn [app] in Hc'.
    split; cbn [s_heap s_head s_tail s_now s_log p_pending p_firing p_now p_log].
    + exact Hc'.
    + apply ins_NoDup; assumption.
    + reflexivity.
    + reflexivity.
    + apply ins_nonneg; [lia|exact Hnn].
    + exact Hnow.
    + rewrite Hlog, Hnow. reflexivity.
    + rewrite absl_ins, Habs, Hnow. unfold full. cbn [p_firing p_pending p_now].
      destruct (p_firing sp); [|reflexivity].
      simpl. replace (p_now sp + t <=? p_now sp) with false by lia. reflexivity.
    + intros Hf. specialize (HRm Hf). cbn [ins]. destruct (t <=? d); simpl in *; lia.
    + intros Hf. specialize (Hfa Hf). cbn [ins].
      assert (Hd0 : d = 0).
      { unfold full in Habs. destruct (p_firing sp); [|congruence]. simpl in Habs.
        injection Habs as H1 H2. lia. }
      replace (t <=? d) with false by lia. exact Hfa.
Qed.

(** ** Cancelling *)
Definition imatch (d f : Z) (i : item) : bool := matches d f (snd (snd i)).

Lemma cancel_loop_absent fuel : forall h hd tl d f prv p e post,
  chain h prv ((p, e) :: post) None -> (length post < fuel)%nat ->
  existsb (imatch d f) ((p, e) :: post) = false ->
  cancel_loop fuel h hd tl d f p = Ok (h, hd, tl).
Proof.
  induction fuel as [|fuel IH]; intros h hd tl d f prv p [t c] post Hc Hf Hno; [lia|].
  cbn [chain] in Hc. destruct Hc as [Hp Hpost]. cbn [cancel_loop]. rewrite Hp.
  cbn [n_call n_next n_prev n_time].
  cbn [existsb] in Hno. apply orb_false_iff in Hno. destruct Hno as [Hno1 Hno2].
  unfold imatch, matches in Hno1. cbn [snd] in Hno1. rewrite Hno1.
  destruct post as [|[p' e'] post]; cbn [hd_addr]; [reflexivity|].
  eapply IH; [exact Hpost | simpl in Hf; lia | exact Hno2].
Qed.

Lemma absl_match d f b l : existsb (pend_match d f) (absl b l) = existsb (imatch d f) l.
Proof.
  revert b; induction l as [|[a [t c]] l IH]; intros b; simpl; [reflexivity|].
  rewrite IH. reflexivity.
Qed.

Definition bump (d : Z) (l : list item) : list item :=
  match l with [] => [] | (a, (t, c)) :: r => (a, (t + d, c)) :: r end.

Lemma dequeue_absent d f l : existsb (pend_match d f) l = false -> dequeue d f l = l.
Proof.
  induction l as [|e l IH]; simpl; intros H; [reflexivity|].
  apply orb_false_iff in H. destruct H as [H1 H2]. rewrite H1, IH; auto.
Qed.

Lemma cancel_event_sim m fa s sp l d f :
  Rel m fa s sp l -> cancel_ok sp d f = true ->
  exists s' l', cancel_event s d f = Ok s' /\
    Rel m fa s' (Spec (dequeue d f (p_pending sp)) (p_firing sp) (p_now sp)
                     (Cancelled (p_now sp) d f :: p_log sp)) l'.
Proof.
  intros R Hok. destruct R as [Hch Hnd Hhd Htl Hnn Hnow Hlog Habs HRm Hfa].
  unfold cancel_event. rewrite Hhd.
  destruct l as [|[p [t c]] post].
  - cbn [hd_addr]. eexists _, []. split; [reflexivity|].
    cbn [absl] in Habs. unfold full in Habs.
    destruct (p_firing sp) eqn:Hf; [discriminate|]. rewrite <- Habs in *.
    split; cbn; auto; try rewrite Hf; auto; try congruence.

  - cbn [hd_addr].
    assert (Hlen : (length post < S (length (s_heap s)))%nat).
    { pose proof (chain_length_le _ _ _ _ Hch Hnd) as Hl. simpl in Hl. lia. }
    destruct (existsb (imatch d f) ((p, (t, c)) :: post)) eqn:Hex.
    + (* head match, not firing *)
      unfold cancel_ok in Hok. rewrite <- (absl_match d f (s_now s)), Habs in Hex.
      unfold full in *. destruct (p_firing sp) as [cf|] eqn:Hf.
      { simpl in Hex. apply andb_true_iff in Hok. destruct Hok as [H1 H2].
        unfold pend_match at 1 in Hex. simpl in Hex.
        destruct (matches d f cf); [discriminate|]. destruct (existsb _ _); discriminate. }
      cbn [absl] in Habs.
      assert (Hpm : matches d f c = true).
      { rewrite <- Habs in Hok. unfold pend_match at 1 in Hok. cbn [snd] in Hok.
        rewrite <- Habs in Hex. cbn [existsb] in Hex. unfold pend_match at 1 in Hex. cbn [snd] in Hex.
        destruct (matches d f c); [reflexivity|]. simpl in *.
        destruct (existsb _ _); discriminate. }
      cbn [chain] in Hch. destruct Hch as [Hp Hpost].
      cbn [cancel_loop]. rewrite Hp. cbn [n_call n_next n_prev n_time].
      unfold matches in Hpm. rewrite Hpm.
      inversion Hnd as [|? ? Hpn Hnd']; subst.
      inversion Hnn as [|? ? Hd Hr]; subst. cbn [fst snd] in Hd.
      assert (Hdq : dequeue d f (p_pending sp) = absl (s_now s + t) post).
      { rewrite <- Habs. cbn [dequeue]. unfold pend_match, matches. cbn [snd]. rewrite Hpm. reflexivity. }
      specialize (HRm eq_refl).
      destruct post as [|[x [tx cx]] post]; cbn [hd_addr bind].
      * eexists _, []. split; [reflexivity|].
        split; cbn [s_heap s_head s_tail s_now s_log p_pending p_firing p_now p_log];
          [exact I|exact Hnd'|reflexivity|reflexivity|exact Hr|exact Hnow
          |rewrite Hlog, Hnow; reflexivity
          |unfold full; cbn [p_firing p_pending]; rewrite ?Hf, ?Hdq; reflexivity
          |intros _; exact I|rewrite ?Hf; congruence].
      * cbn [chain] in Hpost. destruct Hpost as [Hx Hpost']. rewrite Hx. cbn [bind n_next n_prev n_time n_call].
        simpl in Hpn. simpl in Hnd'. inversion Hnd' as [|? ? Hxn Hnd'']; subst.
        eexists _, ((x, (tx + t, cx)) :: post). split; [reflexivity|].
        split; cbn [s_heap s_head s_tail s_now s_log p_pending p_firing p_now p_log];
          try rewrite Hdq; auto.
        all: try (rewrite Hlog, Hnow; reflexivity); try (rewrite ?Hf; congruence).
        -- cbn [chain]. split.
           ++ rewrite load_release_other by (intros ->; apply Hpn; left; reflexivity).
              apply load_store_same. eapply load_lt; eauto.
           ++ eapply chain_frame; [|exact Hpost']. intros a Ha.
              rewrite load_release_other by (intros ->; apply Hpn; right; exact Ha).
              apply load_store_other. intros ->. contradiction.
        -- inversion Hr; subst. constructor; [simpl in *; lia|assumption].
        -- unfold full. cbn [p_firing p_pending absl]. rewrite ?Hf, ?Hdq. cbn [absl].
           replace (s_now s + (tx + t)) with (s_now s + t + tx) by lia. reflexivity.
        -- intros _. inversion Hr; subst. simpl in *. lia.
    + rewrite (cancel_loop_absent _ _ _ _ _ _ _ _ _ _ Hch Hlen Hex). cbn [bind].
      eexists _, ((p, (t, c)) :: post). split; [reflexivity|].
      assert (Hdq : dequeue d f (p_pending sp) = p_pending sp).
      { apply dequeue_absent. rewrite <- (absl_match d f (s_now s)), Habs in Hex.
        unfold full in Hex. destruct (p_firing sp); [|exact Hex].
        cbn [existsb] in Hex. apply orb_false_iff in Hex. tauto. }
      split; cbn [s_heap s_head s_tail s_now s_log p_pending p_firing p_now p_log];
        try rewrite Hdq; auto.
      rewrite Hlog, Hnow. reflexivity.
Qed.

(** ** Simulation of whole runs *)
Section Sim.
Variable cb : list obs -> call -> list op.

Definition sim_res (m : Z) (fa : option nat) (fr : option call) (k : Z) (rc : res sched) (rs : res spec) : Prop :=
  match rs with
  | Ok sp' => exists s' l', rc = Ok s' /\ Rel m fa s' sp' l' /\ p_firing sp' = fr /\ p_now sp' = k
  | NoFuel => rc = NoFuel
  | UB => True
  end.

Lemma exec_sim fuel : forall m fa s sp l ops,
  Rel m fa s sp l -> m <= 1 ->
  sim_res m fa (p_firing sp) (p_now sp) (exec cb fuel s ops) (sexec cb fuel sp ops).
Proof.
  induction fuel as [|fuel IH]; intros m fa s sp l ops R Hm.
  - destruct ops as [|o ops]; cbn.
    + exists s, l. auto.
    + reflexivity.
  - destruct ops as [|o ops]; cbn [exec sexec].
    + exists s, l. auto.
    + destruct o as [c t|d f].
      * destruct (t <? 0) eqn:Hneg; [exact I|].
        destruct (t =? 0) eqn:Hz.
        -- set (s1 := log_fired _ c). set (sp1 := Spec (p_pending sp) _ _ _).
           assert (R1 : Rel m fa s1 sp1 l).
           { destruct R. unfold s1, sp1, log_fired.
             split; cbn [s_heap s_head s_tail s_now s_log p_pending p_firing p_now p_log]; auto.
             rewrite R_log0, R_now0. reflexivity. }
           replace (s_log s1) with (p_log sp1) by (symmetry; apply (R_log _ _ _ _ _ R1)).
           pose proof (IH m fa s1 sp1 l (cb (p_log sp1) c) R1 Hm) as H1.
           destruct (sexec cb fuel sp1 (cb (p_log sp1) c)) as [sp2| |]; cbn [bind sim_res] in *.
           ++ destruct H1 as [s2 [l2 [E [R2 [Hf Hk]]]]]. rewrite E. cbn [bind].
              pose proof (IH m fa s2 sp2 l2 ops R2 Hm) as H2.
              rewrite Hf, Hk in H2. exact H2.
           ++ exact I.
           ++ rewrite H1. reflexivity.
        -- destruct (add_event_sim m fa s sp l c t R) as [s' [l' [E R']]]; [lia|exact Hm|].
           rewrite E. cbn [bind].
           pose proof (IH m fa s' _ l' ops R' Hm) as H2. exact H2.
      * destruct (cancel_ok sp d f) eqn:Hok; [|exact I].
        destruct (cancel_event_sim m fa s sp l d f R Hok) as [s' [l' [E R']]].
        rewrite E. cbn [bind].
        pose proof (IH m fa s' _ l' ops R' Hm) as H2. exact H2.
Qed.

Lemma Rel_weaken fa s sp l :
  Rel 0 fa s sp l -> p_firing sp = None -> hd_ge 1 l -> Rel 1 None s sp l.
Proof. intros [] Hf Hg. split; auto. congruence. Qed.

Lemma fire_sim fuel : forall fa s sp l,
  Rel 0 fa s sp l -> p_firing sp = None ->
  sim_res 1 None None (p_now sp) (fire cb fuel s) (sfire cb fuel sp).
Proof.
  induction fuel as [|fuel IH]; intros fa s sp l R Hf.
  - cbn [fire sfire]. pose proof R as R0. destruct R as [Hch Hnd Hhd Htl Hnn Hnow Hlog Habs HRm Hfa].
    rewrite Hhd. unfold full in Habs. rewrite Hf in Habs. rewrite <- Habs.
    destruct l as [|[p [d c]] post]; cbn [hd_addr absl].
    + exists s, []. split; [reflexivity|]. split; [|auto].
      apply (Rel_weaken fa); auto; exact I.
    + cbn [chain] in Hch. destruct Hch as [Hp Hpost]. rewrite Hp. cbn [n_time n_call].
      replace (s_now s + d =? p_now sp) with (d =? 0) by lia.
      destruct (d =? 0) eqn:Hd; [reflexivity|].
      exists s, ((p, (d, c)) :: post). split; [reflexivity|]. split; [|auto].
      apply (Rel_weaken fa); auto. inversion Hnn; subst. simpl in *. lia.
  - cbn [fire sfire]. pose proof R as R0.
    destruct R as [Hch Hnd Hhd Htl Hnn Hnow Hlog Habs HRm Hfa].
    rewrite Hhd. unfold full in Habs. rewrite Hf in Habs. rewrite <- Habs.
    destruct l as [|[p [d c]] post]; cbn [hd_addr absl].
    + exists s, []. split; [reflexivity|]. split; [|auto].
      apply (Rel_weaken fa); auto; exact I.
    + pose proof Hch as Hch0. cbn [chain] in Hch. destruct Hch as [Hp Hpost]. rewrite Hp. cbn [n_time n_call].
      replace (s_now s + d =? p_now sp) with (d =? 0) by lia.
      destruct (d =? 0) eqn:Hd.
      2:{ exists s, ((p, (d, c)) :: post). split; [reflexivity|]. split; [|auto].
          apply (Rel_weaken fa); auto. inversion Hnn; subst. simpl in *. lia. }
      assert (d = 0) by lia. subst d.
      set (s1 := log_fired s c). set (sp1 := Spec _ (Some c) _ _).
      assert (R1 : Rel 0 (Some p) s1 sp1 ((p, (0, c)) :: post)).
      { unfold s1, sp1, log_fired.
        split; cbn [s_heap s_head s_tail s_now s_log p_pending p_firing p_now p_log]; auto.
        - rewrite Hlog, Hnow. reflexivity.
        - unfold full. cbn [p_firing p_pending p_now absl]. rewrite Hnow, Z.add_0_r. reflexivity. }
      replace (s_log s1) with (p_log sp1) by (symmetry; apply (R_log _ _ _ _ _ R1)).
      pose proof (exec_sim fuel 0 (Some p) s1 sp1 _ (cb (p_log sp1) c) R1) as H1.
      destruct (sexec cb fuel sp1 (cb (p_log sp1) c)) as [sp2| |]; cbn [bind sim_res] in *.
      2: exact I.
      2: rewrite H1 by lia; reflexivity.
      destruct H1 as [s2 [l2 [E [R2 [Hf2 Hk2]]]]]; [lia|]. rewrite E. cbn [bind].
      cbn [p_firing sp1] in Hf2. cbn [p_now sp1] in Hk2.
      destruct R2 as [Hch2 Hnd2 Hhd2 Htl2 Hnn2 Hnow2 Hlog2 Habs2 HRm2 Hfa2].
      specialize (Hfa2 ltac:(rewrite Hf2; discriminate)).
      destruct l2 as [|[p2 [d2 c2]] post2]; [discriminate|]. cbn [hd_addr] in Hfa2.
      injection Hfa2 as ->.
      unfold full in Habs2. rewrite Hf2 in Habs2. cbn [absl] in Habs2. injection Habs2 as Hd2 Hc2 Hrest2.
      assert (d2 = 0) by lia. subst d2.
      cbn [chain] in Hch2. destruct Hch2 as [Hp2 Hpost2]. rewrite Hp2. cbn [n_next].
      inversion Hnd2 as [|? ? Hpn2 Hnd2']; subst.
      inversion Hnn2 as [|? ? _ Hnn2']; subst.
      rewrite Z.add_0_r in Hrest2.
      destruct post2 as [|[x [tx cx]] post2]; cbn [hd_addr].
      * set (s3 := Sched _ _ _ _ _). set (sp3 := Spec _ None _ _).
        assert (R3 : Rel 0 None s3 sp3 []).
        { unfold s3, sp3.
          split; cbn [s_heap s_head s_tail s_now s_log p_pending p_firing p_now p_log]; auto.
          all: try exact I; try constructor; try congruence. }
        pose proof (IH None s3 sp3 [] R3 eq_refl) as H3.
        cbn [p_now sp3] in H3. rewrite Hk2 in H3. unfold sp1 in *. cbn [p_now] in *. exact H3.
      * cbn [chain] in Hpost2. destruct Hpost2 as [Hx Hpost2].
        cbn [addrs map fst In] in Hpn2.
        rewrite load_release_other by (intros ->; apply Hpn2; left; reflexivity).
        rewrite Hx. cbn [set_prev n_next n_time n_call].
        cbn [addrs map fst] in Hnd2'. inversion Hnd2' as [|? ? Hxn Hnd2'']; subst.
        set (s3 := Sched _ _ _ _ _). set (sp3 := Spec _ None _ _).
        assert (R3 : Rel 0 None s3 sp3 ((x, (tx, cx)) :: post2)).
        { unfold s3, sp3.
          split; cbn [s_heap s_head s_tail s_now s_log p_pending p_firing p_now p_log]; auto.
          - cbn [chain]. split.
            + apply load_store_same. rewrite release_length. eapply load_lt; eauto.
            + eapply chain_frame; [|exact Hpost2]. intros a Ha.
              rewrite load_store_other by (intros ->; contradiction).
              apply load_release_other. intros ->. apply Hpn2. right. exact Ha.
          - intros _. simpl. inversion Hnn2'; subst. simpl in *. lia.
          - congruence. }
        pose proof (IH None s3 sp3 _ R3 eq_refl) as H3.
        cbn [p_now sp3] in H3. rewrite Hk2 in H3. unfold sp1 in *. cbn [p_now] in *. exact H3.
Qed.

Lemma advance_sim fuel s sp l :
  Rel 1 None s sp l -> p_firing sp = None ->
  sim_res 1 None None (p_now sp + 1) (advance cb fuel s) (sadvance cb fuel sp).
Proof.
  intros R Hf. unfold advance, sadvance.
  destruct R as [Hch Hnd Hhd Htl Hnn Hnow Hlog Habs HRm Hfa].
  rewrite Hhd. unfold full in Habs. rewrite Hf in *. specialize (HRm eq_refl).
  destruct l as [|[p [d c]] post]; cbn [hd_addr].
  - cbn [absl] in Habs. rewrite <- Habs.
    assert (E : forall fu, sfire cb fu (Spec [] None (p_now sp + 1) (p_log sp)) = Ok (Spec [] None (p_now sp + 1) (p_log sp)))
      by (intros [|fu]; reflexivity).
    rewrite E. cbn [sim_res]. eexists _, []. split; [reflexivity|]. split; [|auto].
    split; cbn; auto; try congruence.
  - cbn [chain] in Hch. destruct Hch as [Hp Hpost]. rewrite Hp. cbn [set_time n_time n_next n_prev n_call].
    set (s1 := Sched _ _ _ _ _). set (sp1 := Spec _ _ _ _).
    inversion Hnd as [|? ? Hpn Hnd']; subst.
    assert (R1 : Rel 0 None s1 sp1 ((p, (d - 1, c)) :: post)).
    { unfold s1, sp1.
      split; cbn [s_heap s_head s_tail s_now s_log p_pending p_firing p_now p_log]; auto; try congruence.
      - cbn [chain]. split.
        + apply load_store_same. eapply load_lt; eauto.
        + eapply chain_frame; [|exact Hpost]. intros a Ha. apply load_store_other. intros ->. contradiction.
      - inversion Hnn; subst. constructor; [simpl in *; lia|assumption].
      - unfold full. cbn [p_firing p_pending absl]. rewrite <- Habs. cbn [absl].
        replace (s_now s + 1 + (d - 1)) with (s_now s + d) by lia. reflexivity.
      - intros _. simpl in *. lia. }
    pose proof (fire_sim fuel None s1 sp1 _ R1 eq_refl) as H. exact H.
Qed.

Lemma run_sim fuel : forall h s sp l,
  Rel 1 None s sp l -> p_firing sp = None ->
  match srun cb fuel sp h with
  | Ok sp' => exists s' l', run cb fuel s h = Ok s' /\ Rel 1 None s' sp' l' /\ p_firing sp' = None
  | NoFuel => run cb fuel s h = NoFuel
  | UB => True
  end.
Proof.
  induction h as [|[o|] h IH]; intros s sp l R Hf; cbn [run srun].
  - exists s, l. auto.
  - pose proof (exec_sim fuel 1 None s sp l [o] R ltac:(lia)) as H1.
    destruct (sexec cb fuel sp [o]) as [sp1| |]; cbn [bind sim_res] in *; [|exact I|rewrite H1; reflexivity].
    destruct H1 as [s1 [l1 [E [R1 [Hf1 _]]]]]. rewrite E. cbn [bind].
    apply (IH s1 sp1 l1 R1). congruence.
  - pose proof (advance_sim fuel s sp l R Hf) as H1.
    destruct (sadvance cb fuel sp) as [sp1| |]; cbn [bind sim_res] in *; [|exact I|rewrite H1; reflexivity].
    destruct H1 as [s1 [l1 [E [R1 [Hf1 _]]]]]. rewrite E. cbn [bind].
    apply (IH s1 sp1 l1 R1). congruence.
Qed.

Lemma Rel_init : Rel 1 None init_event sinit [].
Proof. split; cbn; auto; try constructor; congruence. Qed.
End Sim.
