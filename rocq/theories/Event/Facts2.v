From Verif Require Import Base.Outcome Event.Model Event.Spec Event.Proofs Event.Facts.

(** ** Insertion order *)
Inductive srt : list (Z * call) -> Prop :=
| srt_nil : srt []
| srt_cons e l : Forall (fun x => fst e <= fst x) l -> srt l -> srt (e :: l).

Lemma absl_ge b l : nonneg l -> Forall (fun x => b <= fst x) (absl b l).
Proof.
  intros H. assert (G : forall x, b <= x -> Forall (fun e => b <= fst e) (absl x l)).
  { induction H as [|[a [d c]] l Hd Hl IH]; intros x Hx; cbn [absl]; [constructor|]. cbn in Hd.
    constructor; [cbn; lia|]. apply IH. lia. }
  apply G. lia.
Qed.

Lemma absl_srt b l : nonneg l -> srt (absl b l).
Proof.
  intros H; revert b; induction H as [|[a [d c]] l Hd Hl IH]; intros b; cbn [absl]; [constructor|].
  constructor; [apply absl_ge; exact Hl|apply IH].
Qed.

Lemma enqueue_split k c l : srt l -> exists l1 l2, l = l1 ++ l2 /\ enqueue k c l = l1 ++ (k, c) :: l2 /\
  Forall (fun e => fst e < k) l1 /\ Forall (fun e => k <= fst e) l2.
Proof.
  induction 1 as [|[j e] l Hj Hs IH].
  - exists [], []. cbn. auto.
  - cbn [enqueue]. destruct (k <=? j) eqn:E.
    + exists [], ((j, e) :: l). cbn. repeat split; auto. constructor; [cbn; lia|].
      eapply Forall_impl; [|exact Hj]. cbn. intros; lia.
    + destruct IH as [l1 [l2 [-> [-> [H1 H2]]]]]. exists ((j, e) :: l1), l2. cbn. repeat split; auto.
      constructor; [cbn; lia|exact H1].
Qed.


Lemma reached_rel cb s : reached cb s -> exists sp l, Rel 1 None s sp l /\ p_firing sp = None.
Proof.
  intros [fuel [h [sp [E1 E2]]]]. pose proof (run_sim cb fuel h _ _ _ Rel_init eq_refl) as H.
  rewrite E1 in H. destruct H as [s' [l [E [R Hf]]]]. rewrite E2 in E. injection E as <-. eauto.
Qed.

Lemma add_event_order cb s c t : reached cb s -> 0 < t ->
  exists l1 l2 s', pending_of s = Some (l1 ++ l2) /\ add_event s c t = Ok s' /\
    pending_of s' = Some (l1 ++ (s_now s + t, c) :: l2) /\
    Forall (fun e => fst e < s_now s + t) l1 /\ Forall (fun e => s_now s + t <= fst e) l2.
Proof.
  intros Hr Ht. destruct (reached_rel _ _ Hr) as [sp [l [R Hf]]].
  pose proof (Rel_pending _ _ _ _ R Hf) as Hp.
  assert (Hs : srt (p_pending sp)).
  { pose proof (R_abs _ _ _ _ _ R) as Ha. unfold full in Ha. rewrite Hf in Ha. rewrite <- Ha.
    apply absl_srt. apply (R_nonneg _ _ _ _ _ R). }
  destruct (enqueue_split (p_now sp + t) c _ Hs) as [l1 [l2 [E1 [E2 [H1 H2]]]]].
  destruct (add_event_sim 1 None s sp l c t R) as [s' [l' [E R']]]; [lia|lia|].
  exists l1, l2, s'. rewrite Hp, E1. split; [reflexivity|]. split; [exact E|].
  pose proof (R_now _ _ _ _ _ R) as Hn. rewrite Hn. split; [|split; [exact H1|exact H2]].
  rewrite (Rel_pending _ _ _ _ R' Hf). cbn [p_pending]. rewrite E2. reflexivity.
Qed.

(** ** Cancelling an event that is next, or absent *)
Lemma cancel_head_or_absent cb s d f l : reached cb s -> pending_of s = Some l ->
  (forall e r, l = e :: r -> pend_match d f e = true \/ existsb (pend_match d f) r = false) ->
  exists s', cancel_event s d f = Ok s' /\ pending_of s' = Some (dequeue d f l) /\ s_now s' = s_now s.
Proof.
  intros Hr Hl Hok. destruct (reached_rel _ _ Hr) as [sp [li [R Hf]]].
  rewrite (Rel_pending _ _ _ _ R Hf) in Hl. injection Hl as <-.
  destruct (cancel_event_sim 1 None s sp li d f R) as [s' [l' [E R']]].
  { unfold cancel_ok. rewrite Hf. destruct (p_pending sp) as [|e r]; [reflexivity|].
    destruct (Hok e r eq_refl) as [->| ->]; [reflexivity|]. apply orb_true_r. }
  exists s'. split; [exact E|]. split; [rewrite (Rel_pending _ _ _ _ R' Hf); reflexivity|].
  rewrite (R_now _ _ _ _ _ R'), (R_now _ _ _ _ _ R). reflexivity.
Qed.

(** ** Cancelling anything else *)
Lemma cancel_loop_mid fuel : forall h hd tl d f prv p e pre x tx cx post,
  chain h prv ((p, e) :: pre ++ (x, (tx, cx)) :: post) None ->
  (length pre < fuel)%nat ->
  existsb (imatch d f) ((p, e) :: pre) = false -> matches d f cx = true ->
  exists h' tl', cancel_loop (S fuel) h hd tl d f p = Ok (release h' x, hd, tl') /\
    length h' = length h /\ (forall a, ~ In a (addrs post) -> load h' a = load h a).
Proof.
  induction fuel as [|fuel IH]; intros h hd tl d f prv p [t c] pre x tx cx post Hc Hf Hno Hm; [lia|].
  cbn [chain] in Hc. destruct Hc as [Hp Hrest].
  cbn [existsb] in Hno. apply orb_false_iff in Hno. destruct Hno as [Hno1 Hno2].
  unfold imatch, matches in Hno1. cbn [snd] in Hno1.
  remember (S fuel) as fu. cbn [cancel_loop]. rewrite Hp. cbn [n_call n_next n_prev n_time]. rewrite Hno1.
  destruct pre as [|[p' e'] pre]; cbn [app hd_addr].
  - subst fu. cbn [app chain] in Hrest. destruct Hrest as [Hx Hpost].
    cbn [cancel_loop]. rewrite Hx. cbn [n_call n_next n_prev n_time].
    unfold matches in Hm. rewrite Hm.
    destruct post as [|[y [ty cy]] post]; cbn [hd_addr bind].
    + exists h, (Some p). split; [reflexivity|]. auto.
    + cbn [chain] in Hpost. destruct Hpost as [Hy Hpost]. rewrite Hy. cbn [bind].
      eexists _, tl. split; [reflexivity|]. rewrite store_length. split; [reflexivity|].
      intros a Ha. apply load_store_other. intros <-. apply Ha. left. reflexivity.
  - subst fu. eapply IH; [exact Hrest|simpl in Hf; lia|exact Hno2|exact Hm].
Qed.

(** A chain that runs into a freed node. *)
Lemma walk_broken h x : load h x = None -> forall l p b fuel, chain h p l (Some x) ->
  walk fuel h (hd_addr l (Some x)) b = None.
Proof.
  intros Hx. induction l as [|[a [t c]] l IH]; intros p b fuel Hc.
  - destruct fuel; cbn [walk hd_addr]; [reflexivity|]. rewrite Hx. reflexivity.
  - cbn [chain] in Hc. destruct Hc as [Ha Hl]. destruct fuel as [|fuel]; cbn [walk hd_addr]; [reflexivity|].
    rewrite Ha. cbn [n_next n_time n_call]. rewrite (IH _ _ _ Hl). reflexivity.
Qed.

Lemma cancel_loop_broken h x d f : load h x = None -> forall l p a e fuel hd tl,
  chain h p ((a, e) :: l) (Some x) -> existsb (imatch d f) ((a, e) :: l) = false ->
  (S (length l) < fuel)%nat ->
  cancel_loop fuel h hd tl d f a = UB.
Proof.
  intros Hx. induction l as [|[a' e'] l IH]; intros p a [t c] fuel hd tl Hc Hno Hf;
    (destruct fuel as [|fuel]; [simpl in Hf; lia|]); cbn [chain] in Hc; destruct Hc as [Ha Hl];
    cbn [existsb] in Hno; apply orb_false_iff in Hno; destruct Hno as [Hno1 Hno2];
    unfold imatch, matches in Hno1; cbn [snd] in Hno1;
    cbn [cancel_loop]; rewrite Ha; cbn [n_call n_next n_prev n_time hd_addr]; rewrite Hno1.
  - destruct fuel as [|fuel]; [simpl in Hf; lia|]. cbn [cancel_loop]. rewrite Hx. reflexivity.
  - eapply IH; [exact Hl|exact Hno2|simpl in Hf |- *; lia].
Qed.

Fixpoint total (l : list item) : Z := match l with [] => 0 | (_, (d, _)) :: r => d + total r end.

Lemma add_loop_broken h x new c : load h x = None -> forall l p a e t fuel hd tl,
  chain h p ((a, e) :: l) (Some x) -> nonneg ((a, e) :: l) -> total ((a, e) :: l) < t ->
  (S (length l) < fuel)%nat ->
  add_loop fuel h hd tl new c t a = UB.
Proof.
  intros Hx. induction l as [|[a' e'] l IH]; intros p a [d cc] t fuel hd tl Hc Hn Ht Hf;
    (destruct fuel as [|fuel]; [simpl in Hf; lia|]); cbn [chain] in Hc; destruct Hc as [Ha Hl];
    inversion Hn as [|? ? Hd Hr]; subst; cbn in Hd;
    cbn [add_loop]; rewrite Ha; cbn [n_call n_next n_prev n_time hd_addr].
  - cbn [total] in Ht. replace (t <=? d) with false by lia.
    destruct fuel as [|fuel]; [simpl in Hf; lia|]. cbn [add_loop]. rewrite Hx. reflexivity.
  - assert (Hnt : 0 <= total ((a', e') :: l)).
    { clear - Hr. remember ((a', e') :: l) as q. clear Heqq. induction Hr as [|[z [y w]] q Hy Hq IHq]; cbn in *; lia. }
    cbn [total] in Ht. change (d + total ((a', e') :: l) < t) in Ht.
    replace (t <=? d) with false by lia.
    eapply IH; [exact Hl|exact Hr|lia|simpl in Hf |- *; lia].
Qed.

Lemma chain_alloc' h x p l n : chain h p l n -> chain (h ++ [x]) p l n.
Proof. apply chain_alloc. Qed.

Lemma existsb_split {A} (f : A -> bool) l : existsb f l = true ->
  exists l1 x l2, l = l1 ++ x :: l2 /\ f x = true /\ existsb f l1 = false.
Proof.
  induction l as [|a l IH]; cbn; [discriminate|]. destruct (f a) eqn:E.
  - intros _. exists [], a, l. auto.
  - cbn. intros H. destruct (IH H) as [l1 [x [l2 [-> [Hx H1]]]]]. exists (a :: l1), x, l2. cbn. rewrite E. auto.
Qed.

Lemma total_absl_last b l : forall e, nonneg l -> In e (absl b l) -> fst e <= b + total l.
Proof.
  revert b; induction l as [|[a [d c]] l IH]; intros b e Hn Hin; [contradiction|].
  inversion Hn as [|? ? Hd Hr]; subst. cbn in Hd. cbn [absl] in Hin. destruct Hin as [<-|Hin].
  - cbn. assert (0 <= total l). { clear - Hr. induction Hr as [|[z [y w]] q Hy Hq IHq]; cbn in *; lia. } lia.
  - specialize (IH _ _ Hr Hin). cbn [total]. lia.
Qed.

Lemma total_absl_In b l : l <> [] -> exists e, In e (absl b l) /\ fst e = b + total l.
Proof.
  revert b; induction l as [|[a [d c]] l IH]; intros b Hl; [congruence|].
  destruct l as [|i l].
  - exists (b + d, c). cbn. split; [auto|lia].
  - destruct (IH (b + d)) as [e [He1 He2]]; [discriminate|]. exists e. split; [right; exact He1|].
    rewrite He2. cbn [total]. lia.
Qed.

Lemma absl_app b l1 l2 : absl b (l1 ++ l2) = absl b l1 ++ absl (b + total l1) l2.
Proof.
  revert b; induction l1 as [|[a [d c]] l1 IH]; intros b; cbn [app absl total].
  - f_equal. lia.
  - rewrite IH. cbn. f_equal. f_equal. f_equal. lia.
Qed.

(** In any reachable state, cancelling an event that is not the next one due leaves a pointer to freed memory
    in the queue: the pending events can no longer be read off, the next cancel of something not pending and
    the next add of something later than all of them access freed memory. *)
Lemma cancel_other_corrupts cb s d f e r : reached cb s -> pending_of s = Some (e :: r) ->
  pend_match d f e = false -> existsb (pend_match d f) r = true ->
  exists s', cancel_event s d f = Ok s' /\ pending_of s' = None /\
    (forall d' f', existsb (pend_match d' f') (e :: r) = false -> cancel_event s' d' f' = UB) /\
    (forall c t, Forall (fun x => fst x < s_now s + t) (e :: r) -> add_event s' c t = UB).
Proof.
  intros Hr Hl Hne Hex. destruct (reached_rel _ _ Hr) as [sp [li [R Hf]]].
  rewrite (Rel_pending _ _ _ _ R Hf) in Hl. injection Hl as Hl.
  pose proof (R_abs _ _ _ _ _ R) as Habs. unfold full in Habs. rewrite Hf, Hl in Habs.
  destruct R as [Hch Hnd Hhd Htl Hnn Hnow Hlog _ HRm Hfa].
  destruct li as [|[p [t0 c0]] post]; [discriminate|].
  assert (Hex' : existsb (imatch d f) post = true).
  { cbn [absl] in Habs. injection Habs as _ Hr'. rewrite <- (absl_match d f (s_now s + t0)), Hr'. exact Hex. }
  assert (Hne' : matches d f c0 = false).
  { cbn [absl] in Habs. injection Habs as He' _. rewrite <- He' in Hne. exact Hne. }
  destruct (existsb_split _ _ Hex') as [pre [[x [tx cx]] [post2 [-> [Hxm Hpre]]]]].
  assert (Hlen : (length pre < length (s_heap s))%nat).
  { pose proof (chain_length_le _ _ _ _ Hch Hnd) as HH. simpl in HH. rewrite app_length in HH. simpl in HH. lia. }
  destruct (cancel_loop_mid (length (s_heap s)) (s_heap s) (s_head s) (s_tail s) d f None p (t0, c0) pre x tx cx post2)
    as [h' [tl' [E [Hl' Hfr]]]]; auto.
  { cbn [existsb]. unfold imatch at 1. cbn [snd]. rewrite Hne'. exact Hpre. }
  pose proof Hhd as Hhd0. cbn [hd_addr] in Hhd.
  unfold cancel_event. rewrite Hhd in E |- *. rewrite E. cbn [bind].
  eexists. split; [reflexivity|].
  set (h2 := release h' x).
  assert (Hx2 : load h2 x = None) by apply load_release_same.
  assert (Hb : chain h2 None ((p, (t0, c0)) :: pre) (Some x)).
  { rewrite app_comm_cons in Hch, Hnd. apply chain_app in Hch. destruct Hch as [Hc1 _].
    rewrite addrs_app in Hnd. apply NoDup_app_inv in Hnd. destruct Hnd as [_ [_ Hdis]].
    eapply chain_frame; [|exact Hc1]. intros a Ha. unfold h2. rewrite load_release_other.
    - apply Hfr. intros Hin. apply (Hdis a Ha). cbn. right. exact Hin.
    - intros <-. apply (Hdis x Ha). left. reflexivity. }
  assert (Hlen2 : length h2 = length (s_heap s)) by (unfold h2; rewrite release_length; exact Hl').
  assert (Hlen3 : (S (length pre) < S (length (s_heap s)))%nat) by lia.
  split; [|split].
  - unfold pending_of. cbn [s_heap s_head s_now]. apply (walk_broken h2 x Hx2 _ _ _ _ Hb).
  - intros d' f' Hno. unfold cancel_event. cbn [s_heap s_head s_tail s_now s_log]. rewrite ?Hhd.
    erewrite (cancel_loop_broken h2 x d' f' Hx2); [reflexivity|exact Hb| |].
    + rewrite <- Habs, absl_match in Hno. rewrite app_comm_cons, existsb_app in Hno.
      apply orb_false_iff in Hno. tauto.
    + rewrite Hlen2. exact Hlen3.
  - intros c t Hlt. unfold add_event. cbn [s_heap s_head s_tail s_now s_log]. rewrite ?Hhd.
    erewrite (add_loop_broken (h2 ++ [Some (Node None None t c)]) x (length h2) c); [reflexivity| | | | |].
    + unfold load. rewrite nth_error_app1.
      * exact Hx2.
      * unfold h2. rewrite release_length, Hl'. apply (chain_addr_lt _ _ _ _ x Hch).
        rewrite app_comm_cons, addrs_app. apply in_or_app. right. left. reflexivity.
    + apply chain_alloc. exact Hb.
    + rewrite app_comm_cons in Hnn. apply Forall_app in Hnn. tauto.
    + rewrite app_comm_cons, absl_app in Habs.
      destruct (total_absl_In (s_now s) ((p, (t0, c0)) :: pre)) as [y [Hy1 Hy2]]; [discriminate|].
      rewrite Forall_forall in Hlt. assert (Hy : In y (e :: r)) by (rewrite <- Habs; apply in_or_app; left; exact Hy1).
      specialize (Hlt y Hy). lia.
    + rewrite app_length, Hlen2. simpl. lia.
Qed.

(** ** Progress: callbacks that only schedule with delays of at least one tick always let the clock advance. *)

Section Term.
Variable cb : list obs -> call -> list op.
Hypothesis Hcb : forall lg c, Forall op_later (cb lg c).


Definition duec (k : Z) (l : list (Z * call)) : nat := length (filter (fun e => fst e =? k) l).

Lemma duec_enqueue k k' c l : k <> k' -> duec k (enqueue k' c l) = duec k l.
Proof.
  intros Hk. induction l as [|[j e] l IH]; cbn [enqueue]; unfold duec in *.
  - cbn. replace (k' =? k) with false by lia. reflexivity.
  - destruct (k' <=? j); cbn [filter fst].
    + replace (k' =? k) with false by lia. reflexivity.
    + destruct (j =? k); cbn [length]; rewrite IH; reflexivity.
Qed.

Lemma sexec_later : forall ops fuel sp, Forall op_later ops -> (length ops <= fuel)%nat ->
  exists sp', sexec cb fuel sp ops = Ok sp' /\ p_now sp' = p_now sp /\ p_log sp' = rev (map (fun o => match o with Add c t => Added (p_now sp) c t | Cancel d f => Cancelled (p_now sp) d f end) ops) ++ p_log sp /\
    duec (p_now sp) (p_pending sp') = duec (p_now sp) (p_pending sp).
Proof.
  induction ops as [|o ops IH]; intros fuel sp Ho Hf.
  - exists sp. destruct fuel; auto.
  - destruct fuel as [|fuel]; [simpl in Hf; lia|]. inversion Ho as [|? ? Ho1 Hr]; subst.
    destruct o as [c t|]; [|contradiction]. cbn in Ho1. cbn [sexec].
    replace (t <? 0) with false by lia. replace (t =? 0) with false by lia.
    destruct (IH fuel (Spec (enqueue (p_now sp + t) c (p_pending sp)) (p_firing sp) (p_now sp) (Added (p_now sp) c t :: p_log sp)) Hr)
      as [sp' [E [H1 [H2 H3]]]]; [simpl in Hf; lia|].
    exists sp'. cbn [p_now p_pending p_log] in *. split; [exact E|]. split; [exact H1|].
    split; [rewrite H2; cbn [map rev]; rewrite <- app_assoc; reflexivity|].
    rewrite H3. apply duec_enqueue. lia.
Qed.

Lemma sexec_later_eq fuel fuel' sp ops : Forall op_later ops -> (length ops <= fuel)%nat -> (length ops <= fuel')%nat ->
  sexec cb fuel sp ops = sexec cb fuel' sp ops.
Proof.
  revert fuel fuel' sp; induction ops as [|o ops IH]; intros fuel fuel' sp Ho H1 H2.
  - destruct fuel, fuel'; reflexivity.
  - destruct fuel as [|fuel]; [simpl in H1; lia|]. destruct fuel' as [|fuel']; [simpl in H2; lia|].
    inversion Ho as [|? ? Ho1 Hr]; subst. destruct o as [c t|]; [|contradiction]. cbn in Ho1. cbn [sexec].
    replace (t <? 0) with false by lia. replace (t =? 0) with false by lia.
    simpl in H1, H2. apply IH; auto; lia.
Qed.

Lemma sfire_term : forall n sp, duec (p_now sp) (p_pending sp) = n ->
  exists f0 sp', forall fuel, (f0 <= fuel)%nat -> sfire cb fuel sp = Ok sp'.
Proof.
  induction n as [|n IH]; intros sp Hn.
  - exists 0%nat, sp. intros fuel _. destruct fuel; cbn [sfire]; destruct (p_pending sp) as [|[k c] r]; auto;
      unfold duec in Hn; cbn [filter fst] in Hn; destruct (k =? p_now sp); auto; discriminate.
  - destruct (p_pending sp) as [|[k c] r] eqn:Hp; [discriminate|].
    destruct (k =? p_now sp) eqn:Hk.
    2:{ exists 0%nat, sp. intros fuel _. destruct fuel; cbn [sfire]; rewrite Hp, Hk; reflexivity. }
    set (sp1 := Spec r (Some c) (p_now sp) (Fired (p_now sp) c :: p_log sp)).
    set (ops := cb (p_log sp1) c).
    destruct (sexec_later ops (length ops) sp1 (Hcb _ _) (le_n _)) as [sp2 [E2 [Hn2 [_ Hd2]]]].
    destruct (IH (Spec (p_pending sp2) None (p_now sp2) (p_log sp2))) as [f0 [sp' Hsp']].
    { cbn [p_now p_pending]. rewrite Hn2, Hd2. unfold sp1. cbn [p_now p_pending].
      unfold duec in Hn |- *. cbn [filter fst] in Hn. rewrite Hk in Hn. cbn [length] in Hn. lia. }
    exists (S (f0 + length ops)), sp'. intros fuel Hf. destruct fuel as [|fuel]; [lia|].
    cbn [sfire]. rewrite Hp, Hk. fold sp1. fold ops.
    rewrite (sexec_later_eq fuel (length ops) sp1 ops (Hcb _ _)) by lia. rewrite E2. cbn [bind].
    apply Hsp'. lia.
Qed.

Lemma run_terminates h : (forall o, In (Do o) h -> op_later o) -> 
  exists f0 s, forall fuel, (f0 <= fuel)%nat -> run cb fuel init_event h = Ok s.
Proof.
  intros Hh.
  assert (G : forall h sp, (forall o, In (Do o) h -> op_later o) ->
     exists f0 sp', forall fuel, (f0 <= fuel)%nat -> srun cb fuel sp h = Ok sp').
  { clear h Hh. induction h as [|[o|] h IH]; intros sp Hh.
    - exists 0%nat, sp. reflexivity.
    - assert (Ho : Forall op_later [o]) by (constructor; [apply Hh; left; reflexivity|constructor]).
      destruct (sexec_later [o] 1 sp Ho (le_n _)) as [sp1 [E1 _]].
      destruct (IH sp1) as [f0 [sp' H]]; [intros o' Ho'; apply Hh; right; exact Ho'|].
      exists (S f0), sp'. intros fuel Hf. cbn [srun].
      rewrite (sexec_later_eq fuel 1 sp [o] Ho) by (simpl; lia). rewrite E1. cbn [bind]. apply H. lia.
    - destruct (sfire_term _ (Spec (p_pending sp) (p_firing sp) (p_now sp + 1) (p_log sp)) eq_refl) as [f1 [sp1 H1]].
      destruct (IH sp1) as [f0 [sp' H]]; [intros o' Ho'; apply Hh; right; exact Ho'|].
      exists (f0 + f1)%nat, sp'. intros fuel Hf. cbn [srun]. unfold sadvance. rewrite H1 by lia. cbn [bind]. apply H. lia. }
  destruct (G h sinit Hh) as [f0 [sp H]].
  exists f0.
  pose proof (run_counts cb f0 h sp (H f0 (le_n _))) as [s [Es [_ [Hlog _]]]].
  exists s. intros fuel Hf.
  clear - Es Hf.
  (* the code's run is monotone in fuel *)
  assert (Hex : forall f1 f2 s0 ops s1, (f1 <= f2)%nat -> exec cb f1 s0 ops = Ok s1 -> exec cb f2 s0 ops = Ok s1).
  { induction f1 as [|f1 IH]; intros f2 s0 ops s1 Hle E; destruct ops as [|o ops];
      try (destruct f2; exact E); [discriminate|].
    destruct f2 as [|f2]; [lia|]. cbn [exec] in *. destruct o as [c t|d f].
    - destruct (t =? 0).
      + destruct (exec cb f1 _ (cb _ c)) as [s2| |] eqn:E2; try discriminate.
        rewrite (IH f2 _ _ _ ltac:(lia) E2). cbn [bind] in *. apply IH; [lia|exact E].
      + destruct (add_event s0 c t); cbn [bind] in *; try discriminate. apply IH; [lia|exact E].
    - destruct (cancel_event s0 d f); cbn [bind] in *; try discriminate. apply IH; [lia|exact E]. }
  assert (Hfi : forall f1 f2 s0 s1, (f1 <= f2)%nat -> fire cb f1 s0 = Ok s1 -> fire cb f2 s0 = Ok s1).
  { induction f1 as [|f1 IH]; intros f2 s0 s1 Hle E.
    - destruct f2 as [|f2]; [exact E|]. cbn [fire] in *. destruct (s_head s0) as [p|]; [|exact E].
      destruct (load (s_heap s0) p) as [pn|]; [|exact E]. destruct (n_time pn =? 0); [discriminate|exact E].
    - destruct f2 as [|f2]; [lia|]. cbn [fire] in *. destruct (s_head s0) as [p|]; [|exact E].
      destruct (load (s_heap s0) p) as [pn|]; [|exact E]. destruct (n_time pn =? 0); [|exact E].
      destruct (exec cb f1 _ (cb _ _)) as [s2| |] eqn:E2; try discriminate.
      rewrite (Hex f1 f2 _ _ _ ltac:(lia) E2). cbn [bind] in *.
      destruct (load (s_heap s2) p) as [pn2|]; [|exact E]. destruct (n_next pn2) as [x|].
      + destruct (load _ x); [|exact E]. apply IH; [lia|exact E].
      + apply IH; [lia|exact E]. }
  assert (Hru : forall h s0 s1, run cb f0 s0 h = Ok s1 -> run cb fuel s0 h = Ok s1).
  { clear - Hex Hfi Hf. induction h as [|[o|] h IH]; intros s0 s1 E; cbn [run] in *; [exact E| |].
    - destruct (exec cb f0 s0 [o]) as [s2| |] eqn:E2; try discriminate.
      rewrite (Hex f0 fuel _ _ _ Hf E2). cbn [bind] in *. apply IH. exact E.
    - destruct (advance cb f0 s0) as [s2| |] eqn:E2; try discriminate.
      assert (E3 : advance cb fuel s0 = Ok s2).
      { unfold advance in *. destruct (s_head s0); [|exact E2]. destruct (load _ _); [|exact E2].
        apply (Hfi f0 fuel _ _ Hf E2). }
      rewrite E3. cbn [bind] in *. apply IH. exact E. }
  apply Hru. exact Es.
Qed.
End Term.

Lemma zero_delay cb fuel s c :
  let s1 := Sched (s_heap s) (s_head s) (s_tail s) (s_now s)
              (Fired (s_now s) c :: Added (s_now s) c 0 :: s_log s) in
  exec cb (S fuel) s [Add c 0] = exec cb fuel s1 (cb (s_log s1) c) /\
  (cb (s_log s1) c = [] -> exec cb (S fuel) s [Add c 0] = Ok s1 /\ pending_of s1 = pending_of s).
Proof.
  intros s1.
  assert (E : exec cb (S fuel) s [Add c 0] = exec cb fuel s1 (cb (s_log s1) c)).
  { change (bind (exec cb fuel s1 (cb (s_log s1) c)) (fun s2 => exec cb fuel s2 []) = exec cb fuel s1 (cb (s_log s1) c)).
    destruct (exec cb fuel s1 (cb (s_log s1) c)) as [s2| |]; cbn [bind]; [|reflexivity|reflexivity].
    destruct fuel; reflexivity. }
  split; [exact E|]. intros Hcb. rewrite E, Hcb. split; [destruct fuel; reflexivity|]. reflexivity.
Qed.

Lemma adds_no_ub cb fuel h : cb_adds cb -> Forall top_add h -> run cb fuel init_event h <> UB.
Proof.
  intros Hcb Hh. pose proof (run_sim cb fuel h _ _ _ Rel_init eq_refl) as H.
  pose proof (srun_adds cb fuel Hcb h sinit Hh) as Hn.
  destruct (srun cb fuel sinit h) as [sp| |]; [|contradiction|congruence].
  destruct H as [s' [l [E _]]]. congruence.
Qed.
