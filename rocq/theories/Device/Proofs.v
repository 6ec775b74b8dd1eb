(** The device lists: proofs. *)
From Verif Require Export Device.Spec.

Lemma chan_range a : 0 <= chan_no a < 8.
Proof.
  unfold chan_no. change 7 with (Z.ones 3). rewrite Z.land_ones by lia. apply Z.mod_pos_bound. lia.
Qed.

(** *** Chains *)
Inductive chain (nx : nat -> option nat) : option nat -> list nat -> Prop :=
| chain_nil : chain nx None []
| chain_cons d l : chain nx (nx d) l -> chain nx (Some d) (d :: l).

Lemma chain_ext nx nx' p l : chain nx p l -> (forall d, In d l -> nx' d = nx d) -> chain nx' p l.
Proof.
  induction 1 as [|d l H IH]; intros E; constructor. rewrite E by (left; reflexivity). apply IH. intros x X. apply E. right; exact X.
Qed.
Lemma chain_fun nx p l : chain nx p l -> forall l', chain nx p l' -> l = l'.
Proof.
  induction 1 as [|d l H IH]; intros l' H'; inversion H'; subst; [reflexivity|]. f_equal. apply IH. assumption.
Qed.

Definition rep (g : reg) (l : registry) : Prop :=
  length (g_chan g) = 6%nat /\ NoDup (map fst l) /\
  (forall d a, In (d, a) l -> g_addr g d = a /\ chan_no a < 6) /\
  forall c, 0 <= c < 6 -> exists p, nth_error (g_chan g) (Z.to_nat c) = Some p /\ chain (g_next g) p (map fst (filter (on_chan c) l)).

Lemma rep_none ad nx : rep (no_devices ad nx) [].
Proof.
  split; [reflexivity|]. split; [constructor|]. split; [intros d a []|]. intros c C. exists None. split; [|constructor].
  cbn [no_devices g_chan]. apply nth_error_repeat. lia.
Qed.

Lemma filter_in c (l : registry) d : In d (map fst (filter (on_chan c) l)) -> In d (map fst l).
Proof.
  intros H. apply in_map_iff in H. destruct H as (e & <- & H). apply filter_In in H. apply in_map. apply H.
Qed.

Lemma last_dev_chain l : forall fuel g d, chain (g_next g) (Some d) (d :: l) -> (length l < fuel)%nat -> last_dev fuel g d = Ok (last (d :: l) d) .
Proof.
  induction l as [|e l IH]; intros fuel g d C F; (destruct fuel as [|f]; [cbn in F; lia|]); cbn [last_dev]; inversion_clear C as [|? ? H].
  - inversion H. reflexivity.
  - inversion H; subst. replace (last (d :: e :: l) d) with (last (e :: l) e).
    + apply IH; [constructor; assumption|cbn in F; lia].
    + clear. revert d e. induction l as [|x l IH]; intros d e; [reflexivity|]. change (last (x :: l) e = last (x :: l) d). 
      clear IH. revert x. induction l as [|y l IH]; intros x; [reflexivity|]. change (last (y :: l) e = last (y :: l) d). apply IH.
Qed.

Lemma last_in {A} (l : list A) d e : In (last (d :: l) e) (d :: l).
Proof.
  revert d. induction l as [|x l IH]; intros d; [left; reflexivity|]. right. apply IH.
Qed.
Lemma last_split (l : list nat) d : exists a, d :: l = a ++ [last (d :: l) d].
Proof.
  exists (removelast (d :: l)). rewrite <- (app_removelast_last d) by discriminate. reflexivity.
Qed.

(** Linking a new device behind the last one. *)
Lemma chain_snoc nx a z n : forall p, chain nx p (a ++ [z]) -> NoDup (a ++ [z]) -> ~ In n (a ++ [z]) -> nx n = None ->
  chain (set nx z (Some n)) p (a ++ [z] ++ [n]).
Proof.
  induction a as [|x a IH]; intros p C ND NI N; cbn [app] in *.
  - inversion C; subst. constructor. unfold set at 2. rewrite Nat.eqb_refl. constructor. unfold set.
    destruct (Nat.eqb n z) eqn:E; [apply Nat.eqb_eq in E; subst; exfalso; apply NI; left; reflexivity|]. rewrite N. constructor.
  - inversion C; subst. inversion_clear ND as [|? ? NX ND']. constructor. unfold set at 2.
    destruct (Nat.eqb x z) eqn:E.
    + apply Nat.eqb_eq in E. subst. exfalso. apply NX. apply in_or_app. right. left. reflexivity.
    + apply IH; [assumption|assumption| |assumption]. intros X. apply NI. right. exact X.
Qed.

Lemma filter_map_nodup c (l : registry) : NoDup (map fst l) -> NoDup (map fst (filter (on_chan c) l)).
Proof.
  induction l as [|e l IH]; intros H; [constructor|]. cbn [map filter] in *. inversion_clear H as [|? ? A B].
  destruct (on_chan c e); [|apply IH, B]. constructor; [|apply IH, B]. intros X. apply A. eapply filter_in; exact X.
Qed.

Lemma nodup_length c (l : registry) : (length (filter (on_chan c) l) <= length l)%nat.
Proof. induction l as [|e l IH]; cbn [filter length]; [lia|]. destruct (on_chan c e); cbn [length]; lia. Qed.

Lemma disjoint_chans (l : registry) c c' d : NoDup (map fst l) -> c <> c' ->
  In d (map fst (filter (on_chan c) l)) -> In d (map fst (filter (on_chan c') l)) -> False.
Proof.
  intros ND NE A B. apply in_map_iff in A, B. destruct A as ([d1 a1] & <- & A), B as ([d2 a2] & E & B). cbn in E. subst d2.
  apply filter_In in A, B. destruct A as [A1 A2], B as [B1 B2]. unfold on_chan in *. cbn in A2, B2.
  assert (a1 = a2); [|subst; lia]. clear - ND A1 B1. induction l as [|[x y] l IH]; [destruct A1|]. cbn [map] in ND. inversion_clear ND as [|? ? N1 N2].
  destruct A1 as [A1|A1], B1 as [B1|B1].
  - congruence.
  - injection A1 as -> ->. exfalso. apply N1. apply (in_map fst) in B1. exact B1.
  - injection B1 as -> ->. exfalso. apply N1. apply (in_map fst) in A1. exact A1.
  - apply IH; assumption.
Qed.

Lemma snoc_nodup {A} (l : list A) x : NoDup l -> ~ In x l -> NoDup (l ++ [x]).
Proof.
  induction l as [|y l IH]; intros N I; cbn [app]; [constructor; [intros []|constructor]|]. inversion_clear N as [|? ? N1 N2]. constructor.
  - intros X. apply in_app_or in X. destruct X as [X|[->|[]]]; [tauto|]. apply I. left. reflexivity.
  - apply IH; [exact N2|]. intros X. apply I. right. exact X.
Qed.

Lemma filter_app_on c (l : registry) e : filter (on_chan c) (l ++ [e]) = filter (on_chan c) l ++ if on_chan c e then [e] else [].
Proof. rewrite filter_app. cbn [filter]. destruct (on_chan c e); reflexivity. Qed.

Lemma upd_nth_same {A} (l : list A) i v : (i < length l)%nat -> nth_error (upd l i v) i = Some v.
Proof. apply upd_same. Qed.

(** *** Adding *)
Lemma add_rep fuel g l d a : rep g l -> rop_ok l (RAdd d a) -> (length l < fuel)%nat ->
  exists g', add_chan fuel g d a = Ok g' /\ rep g' (l ++ [(d, a)]).
Proof.
  intros (L & ND & AD & CH) [C6 NI] F. pose proof (chan_range a) as CR.
  set (nx := set (g_next g) d None). set (ad := set (g_addr g) d a).
  assert (CH' : forall c, 0 <= c < 6 -> exists p, nth_error (g_chan g) (Z.to_nat c) = Some p /\ chain nx p (map fst (filter (on_chan c) l))).
  { intros c C. destruct (CH c C) as (p & P1 & P2). exists p. split; [exact P1|]. eapply chain_ext; [exact P2|]. intros x X. unfold nx, set.
    destruct (Nat.eqb x d) eqn:E; [|reflexivity]. apply Nat.eqb_eq in E. subst x. exfalso. apply NI. eapply filter_in; exact X. }
  assert (ND' : NoDup (map fst (l ++ [(d, a)]))) by (rewrite map_app; cbn [map]; apply snoc_nodup; assumption).
  assert (AD' : forall x b, In (x, b) (l ++ [(d, a)]) -> ad x = b /\ chan_no b < 6).
  { intros x b X. apply in_app_or in X. destruct X as [X|[X|[]]].
    - destruct (AD x b X) as [X1 X2]. split; [|exact X2]. unfold ad, set. destruct (Nat.eqb x d) eqn:E; [|exact X1].
      apply Nat.eqb_eq in E. subst x. exfalso. apply NI. apply (in_map fst) in X. exact X.
    - injection X as <- <-. split; [|exact C6]. unfold ad, set. rewrite Nat.eqb_refl. reflexivity. }
  unfold add_chan, chan_get. cbn [g_chan g_addr g_next]. fold nx ad.
  destruct (CH' (chan_no a)) as (p & P1 & P2); [lia|]. rewrite P1. cbn [bind]. destruct p as [h|].
  - (* behind the last one *)
    inversion P2 as [|h' r H E1 E2]; subst h'.
    rewrite (last_dev_chain r); cbn [g_next]; [|rewrite E2; exact P2|].
    2:{ pose proof (nodup_length (chan_no a) l). assert (length (h :: r) = length (filter (on_chan (chan_no a)) l)) by (rewrite E2, map_length; reflexivity). cbn [length] in *. lia. }
    cbn [bind]. eexists. split; [reflexivity|]. set (z := last (h :: r) h).
    assert (ZI : In z (map fst (filter (on_chan (chan_no a)) l))) by (rewrite <- E2; apply last_in).
    split; [exact L|]. split; [exact ND'|]. split; [exact AD'|]. intros c C. cbn [g_chan g_next].
    destruct (CH' c C) as (q & Q1 & Q2). exists q. split; [exact Q1|]. rewrite filter_app_on, map_app. unfold on_chan at 2. cbn [snd].
    destruct (chan_no a =? c) eqn:EC.
    + apply Z.eqb_eq in EC. subst c. rewrite P1 in Q1. injection Q1 as <-. cbn [map fst].
      destruct (last_split r h) as (b & B). fold z in B. rewrite <- E2, B, <- app_assoc. apply chain_snoc.
      * rewrite <- B. rewrite E2. exact P2.
      * rewrite <- B, E2. apply filter_map_nodup, ND.
      * rewrite <- B, E2. intros X. apply NI. eapply filter_in; exact X.
      * unfold nx, set. rewrite Nat.eqb_refl. reflexivity.
    + cbn [map]. rewrite app_nil_r. eapply chain_ext; [exact Q2|]. intros x X. unfold set at 1.
      destruct (Nat.eqb x z) eqn:E; [|reflexivity]. apply Nat.eqb_eq in E. subst x. exfalso.
      apply (disjoint_chans l c (chan_no a) z ND); [lia|exact X|exact ZI].
  - (* first on the channel *)
    unfold chan_set. cbn [g_chan]. rewrite L. replace (Nat.ltb (Z.to_nat (chan_no a)) 6) with true by (symmetry; apply Nat.ltb_lt; lia).
    eexists. split; [reflexivity|]. split; [cbn [g_chan]; rewrite upd_length; exact L|]. split; [exact ND'|]. split; [exact AD'|]. intros c C. cbn [g_chan g_next].
    rewrite filter_app_on, map_app. unfold on_chan at 2. cbn [snd]. destruct (chan_no a =? c) eqn:EC.
    + apply Z.eqb_eq in EC. subst c. exists (Some d). split; [apply upd_nth_same; lia|]. inversion P2. cbn [map fst app]. constructor. unfold nx, set. rewrite Nat.eqb_refl. constructor.
    + destruct (CH' c C) as (q & Q1 & Q2). exists q. cbn [map]. rewrite app_nil_r. split; [|exact Q2]. rewrite upd_other; [exact Q1|lia].
Qed.

(** *** Looking up *)
Lemma find_chain g (l : registry) addr mask : (forall d a, In (d, a) l -> g_addr g d = a) -> forall fuel p, chain (g_next g) p (map fst l) -> (length l <= fuel)%nat ->
  find_from fuel g p addr mask = Ok (option_map fst (find (fun e => Z.land (snd e) mask =? Z.land addr mask) l)).
Proof.
  induction l as [|[d a] l IH]; intros AD fuel p C F; inversion C; subst.
  - destruct fuel; reflexivity.
  - destruct fuel as [|f]; [cbn in F; lia|]. cbn [find_from find snd]. rewrite (AD d a) by (left; reflexivity).
    destruct (Z.land a mask =? Z.land addr mask); [reflexivity|]. apply IH; [intros x b X; apply AD; right; exact X|assumption|cbn in F; lia].
Qed.
Lemma find_filter {A} (P Q : A -> bool) l : find Q (filter P l) = find (fun e => P e && Q e) l.
Proof.
  induction l as [|x l IH]; [reflexivity|]. cbn [filter find]. destruct (P x) eqn:E; cbn [find andb]; [destruct (Q x); [reflexivity|exact IH]|exact IH].
Qed.
Lemma find_rep fuel g l addr mask : rep g l -> chan_no addr < 6 -> (length l <= fuel)%nat -> find_chan fuel g addr mask = Ok (first_match l addr mask).
Proof.
  intros (L & ND & AD & CH) C6 F. pose proof (chan_range addr) as CR. destruct (CH (chan_no addr)) as (p & P1 & P2); [lia|].
  unfold find_chan, chan_get. rewrite P1. cbn [bind]. rewrite (find_chain g _ addr mask) with (2 := P2).
  - unfold first_match. rewrite find_filter. reflexivity.
  - intros d a X. apply filter_In in X. apply AD. apply X.
  - pose proof (nodup_length (chan_no addr) l). lia.
Qed.

(** *** Removing *)
Lemma filter_comm {A} (P Q : A -> bool) l : filter P (filter Q l) = filter Q (filter P l).
Proof.
  induction l as [|x l IH]; [reflexivity|]. cbn [filter]. destruct (P x) eqn:EP, (Q x) eqn:EQ; cbn [filter]; rewrite ?EP, ?EQ, IH; reflexivity.
Qed.
Definition gone (d : nat) (l : list nat) : list nat := filter (fun x => negb (Nat.eqb x d)) l.
Lemma gone_notin d l : ~ In d l -> gone d l = l.
Proof.
  induction l as [|x l IH]; intros H; [reflexivity|]. cbn [gone filter]. destruct (Nat.eqb x d) eqn:E; cbn [negb].
  - apply Nat.eqb_eq in E. subst. exfalso. apply H. left. reflexivity.
  - f_equal. apply IH. intros X. apply H. right. exact X.
Qed.
Lemma filter_del d a c (l : registry) : chan_no a = c ->
  map fst (filter (on_chan c) (filter (fun e => negb (Nat.eqb (fst e) d && on_chan (chan_no a) e)) l)) = gone d (map fst (filter (on_chan c) l)).
Proof.
  intros <-. induction l as [|e l IH]; [reflexivity|]. cbn [filter]. destruct (on_chan (chan_no a) e) eqn:E.
  - rewrite andb_true_r. cbn [map gone filter]. destruct (Nat.eqb (fst e) d) eqn:E2; cbn [negb filter]; rewrite ?E; cbn [map]; [exact IH|f_equal; exact IH].
  - rewrite andb_false_r. cbn [negb filter]. rewrite E. exact IH.
Qed.
Lemma filter_del_other d a c (l : registry) : chan_no a <> c ->
  map fst (filter (on_chan c) (filter (fun e => negb (Nat.eqb (fst e) d && on_chan (chan_no a) e)) l)) = map fst (filter (on_chan c) l).
Proof.
  intros N. f_equal. induction l as [|e l IH]; [reflexivity|]. cbn [filter]. destruct (on_chan c e) eqn:E.
  - replace (on_chan (chan_no a) e) with false by (unfold on_chan in *; lia). rewrite andb_false_r. cbn [negb filter]. rewrite E. f_equal. exact IH.
  - destruct (negb (Nat.eqb (fst e) d && on_chan (chan_no a) e)); cbn [filter]; rewrite ?E; exact IH.
Qed.
Lemma filter_nodup_map (P : nat * Z -> bool) l : NoDup (map fst l) -> NoDup (map fst (filter P l)).
Proof.
  induction l as [|e l IH]; intros H; [constructor|]. cbn [map filter] in *. inversion_clear H as [|? ? A B].
  destruct (P e); [|apply IH, B]. constructor; [|apply IH, B]. intros X. apply A. apply in_map_iff in X. destruct X as (y & <- & Y). apply filter_In in Y. apply in_map. apply Y.
Qed.

(** Unlinking inside a chain. *)
Lemma unlink_chain l : forall fuel g h dev, chain (g_next g) (Some h) (h :: l) -> NoDup (h :: l) -> h <> dev -> (length l < fuel)%nat ->
  exists nx, unlink fuel g h dev = Ok (mkReg (g_chan g) (g_addr g) nx) /\ chain nx (Some h) (h :: gone dev l)
  /\ forall x, ~ In x (h :: l) -> nx x = g_next g x.
Proof.
  induction l as [|e l IH]; intros fuel g h dev C ND NE F; (destruct fuel as [|f]; [cbn in F; lia|]); cbn [unlink]; inversion_clear C as [|? ? H].
  - inversion H. exists (g_next g). destruct g; cbn in *. split; [reflexivity|]. split; [constructor; rewrite <- H1; constructor|]. reflexivity.
  - inversion H as [|e' l' H2 E1 E2]. subst e' l'. inversion_clear ND as [|? ? N1 N2]. destruct (Nat.eqb e dev) eqn:E.
    + apply Nat.eqb_eq in E. subst e. eexists. split; [reflexivity|]. inversion_clear N2 as [|? ? N3 N4].
      cbn [gone filter]. rewrite Nat.eqb_refl. cbn [negb]. fold (gone dev l). rewrite (gone_notin dev l N3). split.
      * constructor. unfold set at 2. rewrite Nat.eqb_refl. eapply chain_ext; [exact H2|]. intros x X. unfold set.
        destruct (Nat.eqb x h) eqn:E; [|reflexivity]. apply Nat.eqb_eq in E. subst x. exfalso. apply N1. right. exact X.
      * intros x X. unfold set. destruct (Nat.eqb x h) eqn:E; [|reflexivity]. apply Nat.eqb_eq in E. subst x. exfalso. apply X. left. reflexivity.
    + destruct (IH f g e dev) as (nx & U & C2 & O); [constructor; exact H2|exact N2|intros ->; rewrite Nat.eqb_refl in E; discriminate|cbn in F; lia|].
      exists nx. split; [exact U|]. cbn [gone filter]. rewrite E. cbn [negb]. fold (gone dev l). split.
      * constructor. rewrite (O h N1), <- E1. exact C2.
      * intros x X. apply O. intros Y. apply X. right. exact Y.
Qed.

Lemma del_rep fuel g l d a : rep g l -> chan_no a < 6 -> (length l < fuel)%nat ->
  exists g', del_chan fuel g d a = Ok g' /\ rep g' (reg_op l (RDel d a)).
Proof.
  intros (L & ND & AD & CH) C6 F. pose proof (chan_range a) as CR. cbn [reg_op]. set (l' := filter _ l).
  assert (ND' : NoDup (map fst l')) by (apply filter_nodup_map, ND).
  assert (AD' : forall x b, In (x, b) l' -> g_addr g x = b /\ chan_no b < 6) by (intros x b X; apply filter_In in X; apply AD; apply X).
  destruct (CH (chan_no a)) as (p & P1 & P2); [lia|]. unfold del_chan, chan_get. rewrite P1. cbn [bind]. destruct p as [h|].
  - inversion P2 as [|h' r H E1 E2]. subst h'.
    assert (NDr : NoDup (h :: r)) by (rewrite E2; apply filter_map_nodup, ND).
    destruct (Nat.eqb h d) eqn:E.
    + apply Nat.eqb_eq in E. subst h. unfold chan_set. rewrite L. replace (Nat.ltb (Z.to_nat (chan_no a)) 6) with true by (symmetry; apply Nat.ltb_lt; lia).
      eexists. split; [reflexivity|]. split; [cbn [g_chan]; rewrite upd_length; exact L|]. split; [exact ND'|]. split; [exact AD'|]. intros c C. cbn [g_chan g_next].
      destruct (Z.eq_dec (chan_no a) c) as [EC|EC].
      * subst c. exists (g_next g d). split; [apply upd_nth_same; lia|]. unfold l'. rewrite filter_del by reflexivity. rewrite <- E2. cbn [gone filter]. rewrite Nat.eqb_refl. cbn [negb].
        fold (gone d r). rewrite gone_notin; [exact H|]. inversion_clear NDr. assumption.
      * destruct (CH c C) as (q & Q1 & Q2). exists q. unfold l'. rewrite filter_del_other by exact EC. split; [|exact Q2]. rewrite upd_other; [exact Q1|lia].
    + destruct (unlink_chain r fuel g h d) as (nx & U & C2 & O); [rewrite E2; exact P2|exact NDr|intros ->; rewrite Nat.eqb_refl in E; discriminate| |].
      { pose proof (nodup_length (chan_no a) l). assert (length (h :: r) = length (filter (on_chan (chan_no a)) l)) by (rewrite E2, map_length; reflexivity). cbn [length] in *. lia. }
      eexists. split; [exact U|]. split; [exact L|]. split; [exact ND'|]. split; [exact AD'|]. intros c C. cbn [g_chan g_next].
      destruct (Z.eq_dec (chan_no a) c) as [EC|EC].
      * subst c. exists (Some h). split; [exact P1|]. unfold l'. rewrite filter_del by reflexivity. rewrite <- E2. cbn [gone filter]. rewrite E. exact C2.
      * destruct (CH c C) as (q & Q1 & Q2). exists q. unfold l'. rewrite filter_del_other by exact EC. split; [exact Q1|].
        eapply chain_ext; [exact Q2|]. intros x X. apply O. rewrite E2. intros Y. exact (disjoint_chans l c (chan_no a) x ND (fun e => EC (eq_sym e)) X Y).
  - exists g. split; [reflexivity|]. split; [exact L|]. split; [exact ND'|]. split; [exact AD'|]. intros c C. destruct (CH c C) as (q & Q1 & Q2). exists q. split; [exact Q1|].
    unfold l'. destruct (Z.eq_dec (chan_no a) c) as [EC|EC]; [|rewrite filter_del_other by exact EC; exact Q2].
    rewrite filter_del by exact EC. subst c. inversion P2. rewrite <- H in *. exact Q2.
Qed.

Lemma do_rops_rep ops : forall fuel g l, rep g l -> rops_ok l ops -> (length l + length ops < fuel)%nat ->
  exists g', do_rops fuel g ops = Ok g' /\ rep g' (reg_ops l ops).
Proof.
  induction ops as [|o ops IH]; intros fuel g l R OK F; cbn [do_rops reg_ops fold_left]; [eauto|]. destruct OK as [O1 O2]. cbn [length] in F.
  assert (X : exists g', do_rop fuel g o = Ok g' /\ rep g' (reg_op l o) /\ (length (reg_op l o) <= length l + 1)%nat).
  { destruct o as [d a|d a]; cbn [do_rop].
    - destruct (add_rep fuel g l d a R O1) as (g' & A & B); [lia|]. exists g'. split; [exact A|]. split; [exact B|]. cbn [reg_op]. rewrite app_length. cbn. lia.
    - destruct (del_rep fuel g l d a R O1) as (g' & A & B); [lia|]. exists g'. split; [exact A|]. split; [exact B|]. cbn [reg_op].
      clear. induction l as [|e l IH]; cbn [filter length]; [lia|]. destruct (negb _); cbn [length]; lia. }
  destruct X as (g' & A & B & LE). rewrite A. cbn [bind]. apply IH; [exact B|exact O2|lia].
Qed.

(** *** All devices *)
Lemma calls_chain has l : forall fuel g p, chain (g_next g) p l -> (length l <= fuel)%nat -> calls_from fuel g has p = Ok (filter has l).
Proof.
  induction l as [|d l IH]; intros fuel g p C F; inversion C as [|d' l' C' E1 E2]; subst; [destruct fuel; reflexivity|].
  destruct fuel as [|f]; [cbn in F; lia|]. cbn [calls_from]. rewrite (IH f g _ C') by (cbn in F; lia). cbn [bind filter]. destruct (has d); reflexivity.
Qed.
Lemma calls_rep fuel g l has : rep g l -> (length l <= fuel)%nat -> system_calls fuel g has = Ok (filter has (by_chan l)).
Proof.
  intros (L & ND & AD & CH) F. unfold system_calls.
  assert (X : forall c, 0 <= c < 6 -> exists p, nth_error (g_chan g) (Z.to_nat c) = Some p /\ calls_from fuel g has p = Ok (filter has (map fst (filter (on_chan c) l)))).
  { intros c C. destruct (CH c C) as (p & P1 & P2). exists p. split; [exact P1|]. apply calls_chain; [exact P2|]. rewrite map_length. pose proof (nodup_length c l). lia. }
  destruct (g_chan g) as [|p0 [|p1 [|p2 [|p3 [|p4 [|p5 [|? ?]]]]]]]; try discriminate L.
  destruct (X 0) as (q0 & Q0 & E0); [lia|]. destruct (X 1) as (q1 & Q1 & E1); [lia|]. destruct (X 2) as (q2 & Q2 & E2); [lia|].
  destruct (X 3) as (q3 & Q3 & E3); [lia|]. destruct (X 4) as (q4 & Q4 & E4); [lia|]. destruct (X 5) as (q5 & Q5 & E5); [lia|].
  cbn in Q0, Q1, Q2, Q3, Q4, Q5. injection Q0 as <-. injection Q1 as <-. injection Q2 as <-. injection Q3 as <-. injection Q4 as <-. injection Q5 as <-.
  cbn [calls_chans]. rewrite E0, E1, E2, E3, E4, E5. cbn [bind]. unfold by_chan. cbn [map concat]. rewrite !filter_app. cbn [filter]. reflexivity.
Qed.

(** *** Disks *)
Inductive dchain (nodes : list (option dnode)) : option nat -> list nat -> list (nat * ptr) -> Prop :=
| dchain_nil : dchain nodes None [] []
| dchain_cons i x il l : nth_error nodes i = Some (Some x) -> dchain nodes (n_next x) il l ->
    dchain nodes (Some i) (i :: il) ((n_step x, n_disk x) :: l).
Definition drep (s : dlist) (l : list (nat * ptr)) : Prop :=
  exists il, dchain (l_nodes s) (l_head s) il l /\ NoDup il.

Lemma dchain_ext n n' p il l : dchain n p il l -> (forall i, In i il -> nth_error n' i = nth_error n i) -> dchain n' p il l.
Proof.
  induction 1 as [|i x il l H C IH]; intros E; [constructor|]. econstructor; [rewrite E by (left; reflexivity); exact H|]. apply IH. intros j J. apply E. right. exact J.
Qed.
Lemma dchain_in n p il l : dchain n p il l -> forall i, In i il -> (i < length n)%nat.
Proof.
  induction 1 as [|i x il l H C IH]; intros j J; [destruct J|]. destruct J as [<-|J]; [|apply IH, J]. apply nth_error_Some. congruence.
Qed.
Lemma dchain_len n p il l : dchain n p il l -> length il = length l.
Proof. induction 1; cbn [length]; congruence. Qed.

Lemma add_drep s l f d : drep s l -> drep (add_disk s f d) ((f, d) :: l).
Proof.
  intros (il & C & ND). exists (length (l_nodes s) :: il). unfold add_disk. cbn [l_nodes l_head]. split.
  - change f with (n_step (mkDnode f d (l_head s))) at 2. change d with (n_disk (mkDnode f d (l_head s))) at 2.
    apply dchain_cons. { rewrite nth_error_app2, Nat.sub_diag by lia. reflexivity. } cbn [n_next].
    eapply dchain_ext; [exact C|]. intros i I. apply nth_error_app1. eapply dchain_in; eassumption.
  - constructor; [|exact ND]. intros I. pose proof (dchain_in _ _ _ _ C _ I). lia.
Qed.

Lemma del_from_other l : forall fuel s d il drive k, dchain (l_nodes s) d il l -> NoDup il -> (length l <= fuel)%nat ->
  ~ In k il -> forall y, nth_error (l_nodes s) k = Some (Some y) -> n_next y = d ->
  exists s', del_from fuel s (Some k) d drive = Ok s' /\ l_head s' = l_head s /\
  (exists il' y', nth_error (l_nodes s') k = Some (Some y') /\ n_step y' = n_step y /\ n_disk y' = n_disk y /\ dchain (l_nodes s') (n_next y') il' (remove_first drive l) /\ NoDup il' /\ (forall i, In i il' -> In i il)) /\
  (forall i, ~ In i (k :: il) -> nth_error (l_nodes s') i = nth_error (l_nodes s) i).
Proof.
  induction l as [|e l IH]; intros fuel s d il drive k C ND F K y Y YN; inversion C as [HN|i x il0 l0 H2 H3 HN H5 H6]; subst.
  - exists s. split; [destruct fuel; reflexivity|]. split; [reflexivity|]. split; [|reflexivity]. exists [], y. split; [exact Y|]. split; [reflexivity|]. split; [reflexivity|]. split; [|split; [constructor|auto]].
    match goal with H : None = n_next y |- _ => rewrite <- H end. constructor.
  - destruct fuel as [|f]; [cbn in F; lia|]. cbn [del_from]. unfold node at 1. rewrite H2. cbn [bind]. inversion_clear ND as [|? ? N1 N2].
    cbn [remove_first snd]. destruct (ptr_eqb (n_disk x) drive) eqn:E.
    + unfold node. rewrite Y. cbn [bind l_nodes l_head]. eexists. split; [reflexivity|]. cbn [l_nodes l_head]. split; [reflexivity|].
      assert (KI : k <> i) by (intros ->; apply K; left; reflexivity).
      assert (LI : (i < length (l_nodes s))%nat) by (apply nth_error_Some; congruence).
      assert (LK : (k < length (l_nodes s))%nat) by (apply nth_error_Some; congruence).
      split.
      * exists il0. eexists. split; [rewrite upd_other by congruence; apply upd_same; exact LK|]. cbn [n_step n_disk n_next]. repeat split; auto.
        2:{ intros j J. right. exact J. }
        eapply dchain_ext; [exact H3|]. intros j J. rewrite !upd_other; [reflexivity| |].
        -- intros ->. apply K. right. exact J.
        -- intros ->. apply N1. exact J.
      * intros j J. rewrite !upd_other; [reflexivity| |]; intros ->; apply J; [left|right; left]; reflexivity.
    + destruct (IH f s (n_next x) il0 drive i H3 N2) with (y := x) as (s' & D & HH & (il' & y' & Y1 & Y2 & Y3 & Y4 & Y5 & Y6) & O); auto; [cbn in F; lia|].
      exists s'. split; [exact D|]. split; [exact HH|]. split.
      * exists (i :: il'). exists y. split; [rewrite O; [exact Y|]|].
        { intros [<-|Q]; [apply K; left; reflexivity|apply K; right; exact Q]. }
        split; [reflexivity|]. split; [reflexivity|]. rewrite <- HN. split.
        { rewrite <- Y2, <- Y3. econstructor; [exact Y1|exact Y4]. }
        split; [constructor; [intros Q; apply N1, Y6, Q|exact Y5]|]. intros j [<-|J]; [left; reflexivity|right; apply Y6, J].
      * intros j J. apply O. intros Q. apply J. right. exact Q.
Qed.

Lemma del_drep fuel s l n : drep s l -> (length l <= fuel)%nat -> exists s', del_disk fuel s (Obj n) = Ok s' /\ drep s' (remove_first (Obj n) l).
Proof.
  intros (il & C & ND) F. unfold del_disk. replace (ptr_eqb (head_ptr s) (Obj n)) with false by (unfold head_ptr; destruct (l_head s); reflexivity).
  inversion C as [HN|i x il' l' X C' HN]; subst.
  - exists s. split; [destruct fuel; reflexivity|]. exists []. rewrite <- HN. split; [constructor|constructor].
  - destruct fuel as [|f]; [cbn in F; lia|]. cbn [del_from]. unfold node at 1. rewrite X. cbn [bind]. inversion_clear ND as [|? ? N1 N2]. cbn [remove_first snd].
    destruct (ptr_eqb (n_disk x) (Obj n)).
    + cbn [bind l_nodes l_head]. eexists. split; [reflexivity|]. exists il'. cbn [l_nodes l_head]. split; [|exact N2].
      eapply dchain_ext; [exact C'|]. intros j J. apply upd_other. intros ->. apply N1. exact J.
    + destruct (del_from_other l' f s (n_next x) il' (Obj n) i C' N2) with (y := x) as (s' & D & HH & (il2 & y' & Y1 & Y2 & Y3 & Y4 & Y5 & Y6) & O); auto; [cbn in F; lia|].
      exists s'. split; [exact D|]. exists (i :: il2). rewrite HH, <- HN. split; [rewrite <- Y2, <- Y3; econstructor; [exact Y1|exact Y4]|].
      constructor; [intros Q; apply N1, Y6, Q|exact Y5].
Qed.

Lemma remove_length d l : (length (remove_first d l) <= length l)%nat.
Proof. induction l as [|e l IH]; cbn [remove_first length]; [lia|]. destruct (ptr_eqb (snd e) d); cbn [length]; lia. Qed.

Lemma acts_drep ops : forall fuel s l, drep s l -> Forall is_obj ops -> (length l + length ops <= fuel)%nat ->
  exists s', acts fuel s ops = Ok s' /\ drep s' (fold_left disk_op ops l).
Proof.
  induction ops as [|o ops IH]; intros fuel s l R OK F; cbn [acts fold_left]; [eauto|]. inversion_clear OK as [|? ? O1 O2]. cbn [length] in F.
  destruct o as [f d|d]; cbn [act disk_op].
  - cbn [bind]. apply IH; [apply add_drep, R|exact O2|cbn [length]; lia].
  - destruct d as [|m|m]; try destruct O1. destruct (del_drep fuel s l m R) as (s' & A & B); [lia|]. rewrite A. cbn [bind].
    apply IH; [exact B|exact O2|]. pose proof (remove_length (Obj m) l). lia.
Qed.

Lemma step_drep fuel does s l : drep s l -> (length l <= fuel)%nat -> (forall f d, In (f, d) l -> does f d = []) -> step_disk fuel does s = Ok (s, l).
Proof.
  intros (il & C & ND) F D. unfold step_disk. remember (l_head s) as p eqn:HP. clear HP. revert fuel F. induction C as [|i x il l X C IH]; intros fuel F.
  - destruct fuel; reflexivity.
  - destruct fuel as [|f]; [cbn in F; lia|]. cbn [step_from]. unfold node. rewrite X. cbn [bind]. rewrite (D (n_step x) (n_disk x)) by (left; reflexivity).
    cbn [acts bind]. rewrite X. cbn [bind]. inversion_clear ND as [|? ? N1 N2]. rewrite (IH N2) by (try (intros; apply D; right; assumption); cbn in F; lia). reflexivity.
Qed.
