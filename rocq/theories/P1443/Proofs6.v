(** Keys, runs, selection, answers to commands. *)
From Verif Require Import P1443.Spec P1443.Proofs P1443.Proofs2 P1443.Proofs3 P1443.Proofs4 P1443.Proofs5.

Lemma key_good s k : okd s -> match do_key k s with Ok s' => okd s' | UB => undefined_key s k | NoFuel => False end.
Proof.
  intros O. destruct k; cbn [do_key].
  - destruct (_ && _); [destruct O; okd_tac|exact O].
  - destruct (p_st s); destruct O; okd_tac.
  - destruct O; okd_tac.
  - destruct (p_ready s) eqn:R; cbn [negb]; [exact O|].
    assert (O2 : okd (set_cmd 11 s)) by (destruct O; constructor; cbn; auto; apply byte_const; reflexivity).
    destruct (print_undefined _ (okd_buf _ O2) (or_intror eq_refl : prints (p_cmd (set_cmd 11 s))) (ok_row _ O2)) as [U D].
    destruct (undefined_dec (set_cmd 11 s)) as [C|C].
    + rewrite (U C). cbn [bind]. split; [exact R|]. unfold undefined_print in C. cbn in C. unfold line in *. cbn in C. destruct C as [C|[C|C]]; [left; tauto|right; lia|lia].
    + destruct (D C) as (x & y & E). rewrite E. cbn [bind]. destruct (print_frame _ _ _ O2 E) as [_ Ox]. clear O2 U D C E. destruct Ox; okd_tac.
  - destruct (p_ready s) eqn:R; cbn [negb]; [exact O|].
    assert (O2 : okd (set_cmd 139 s)) by (destruct O; constructor; cbn; auto; apply byte_const; reflexivity).
    destruct (print_undefined _ (okd_buf _ O2) (or_intror eq_refl : prints (p_cmd (set_cmd 139 s))) (ok_row _ O2)) as [U D].
    rewrite U. 1: { cbn [bind]. split; [exact R|exact I]. }
    unfold undefined_print. right; right. unfold line. cbn. split; [lia|]. pose proof (ok_row _ O). lia.
  - destruct (_ && _); [destruct O; okd_tac|exact O].
  - destruct f; destruct O; okd_tac.
Qed.
Lemma fire_ok s : okd s -> okd (match fire s with Some s' => s' | None => s end).
Proof. intros O. unfold fire. destruct (p_pend s); [exact O|destruct O; okd_tac]. Qed.
Lemma astep_good a s x : is_byte a -> okd s -> match astep a s x with Ok s' => okd s' | UB => undefined_act s x | NoFuel => False end.
Proof.
  intros A O. destruct x as [t bo bi| |k]; cbn [astep undefined_act].
  - pose proof (step_good a s t bo bi A O) as G. destruct (dev_step a s t bo bi) as [[[s' t'] b']| |]; cbn [bind fst good] in *; [exact (proj1 G)|exact G|exact G].
  - apply fire_ok; exact O.
  - apply key_good; exact O.
Qed.
Lemma fresh_ok : okd fresh.
Proof. constructor; try (apply byte_const; reflexivity); try (cbn; lia); try reflexivity. apply Forall_forall. intros x H. apply repeat_spec in H. subst. apply byte0. Qed.
Lemma run_good a l : is_byte a -> forall s, okd s ->
  match run a s l with Ok s' => okd s' | UB => exists l1 x l2 s1, l = l1 ++ x :: l2 /\ run a s l1 = Ok s1 /\ undefined_act s1 x | NoFuel => False end.
Proof.
  intros A. induction l as [|x l IH]; intros s O; cbn [run]; [exact O|].
  pose proof (astep_good a s x A O) as G. destruct (astep a s x) as [s1| |] eqn:E; cbn [bind]; [|exists [], x, l, s; auto|exact G].
  specialize (IH s1 G). destruct (run a s1 l) as [s2| |]; try exact IH. destruct IH as (l1 & y & l2 & z & -> & E1 & U).
  exists (x :: l1), y, l2, z. split; [reflexivity|]. split; [cbn [run]; rewrite E; exact E1|exact U].
Qed.

(** *** Selection *)
Definition held_st (s : dev) : Prop := match p_st s with P_STACK_CMD | P_STACK_STA | P_STACK_HLD => p_sel s = true | _ => True end.
Lemma take_st s bo s' : okd s -> take_cmd bo s = Ok s' -> p_st s' = P_CMD.
Proof.
  intros O E. destruct (bad_parity_ok bo) as [bad BP]. unfold take_cmd in E. pose proof (begin_ok (Z.land bo 255) s O (byte_land bo)) as O1.
  assert (ST1 : p_st (begin_cmd (Z.land bo 255) s) = P_CMD) by reflexivity. assert (C1 : p_cmd (begin_cmd (Z.land bo 255) s) = Z.land bo 255) by reflexivity.
  set (s1 := begin_cmd (Z.land bo 255) s) in *. clearbody s1. destruct (no_paper s1); [injection E as <-; exact ST1|].
  assert (OB : forall s2, obey (Z.land bo 255) s1 = Ok s2 -> p_st s2 = P_CMD).
  { intros s2 E2. unfold obey in E2. repeat match type of E2 with context[if Z.land _ 7 =? ?k then _ else _] => destruct (Z.land _ 7 =? k) eqn:?Q in E2 end;
      try (destruct (_ || _) in E2); try (destruct (negb _) in E2); try (injection E2 as <-; exact ST1).
    assert (O2 : okd (set_sense 0 s1)) by (destruct O1; okd_tac).
    assert (P2 : prints (p_cmd (set_sense 0 s1))) by (right; cbn [p_cmd set_sense]; rewrite C1; lia).
    pose proof (print_event_frame _ O2 P2) as PE. destruct (print_event (set_sense 0 s1)) as [s3| |]; try discriminate. cbn [bind] in E2. injection E2 as <-.
    destruct PE as (_ & _ & PE & _). exact (eq_trans PE ST1). }
  destruct (obey (Z.land bo 255) s1) as [s2| |]; try discriminate. cbn [bind] in E. rewrite BP in E. cbn [bind] in E. injection E as <-.
  specialize (OB s2 eq_refl). destruct bad; exact OB.
Qed.
Lemma print_key_same s c s' : okd s -> is_byte c -> (let* (s, _) := print_line (set_cmd c s) in Ok (set_cmd 0 s)) = Ok s' -> p_st s' = p_st s /\ p_sel s' = p_sel s.
Proof.
  intros O C E. assert (O2 : okd (set_cmd c s)) by (destruct O; okd_tac).
  destruct (print_line (set_cmd c s)) as [[x y]| |] eqn:P; try discriminate. cbn [bind] in E. injection E as <-.
  destruct (print_frame _ _ _ O2 P) as [F _]. unfold same_but_print in F. cbn in F |- *. tauto.
Qed.
Ltac brkE E := repeat (match type of E with
  | context[if ?b then _ else _] => lazymatch b with context[if _ then _ else _] => fail | _ => destruct b eqn:? in E end
  end; cbn [bind] in E; cbv beta iota in E).
Lemma step_held a s t bo bi s' t' b' : is_byte a -> okd s -> held_st s -> dev_step a s t bo bi = Ok (s', t', b') -> held_st s'.
Proof.
  intros A O H E. destruct (bad_parity_ok bo) as [bad BP]. destruct (parity_odd a A) as (wa & EA & _). destruct (parity_odd _ (ok_status s O)) as (ws & ES & _).
  unfold dev_step in E. destruct (negb (opro t) && negb (supo t)); [injection E as <- _ _; exact I|].
  assert (FD : forall x y z, Ok (x, y, z) = Ok (s', t', b') -> held_st x -> held_st s') by (intros x y z Q HX; injection Q as <- _ _; exact HX).
  assert (SM : forall x, p_st x = p_st s -> p_sel x = p_sel s -> held_st x) by (intros x Q1 Q2; unfold held_st in *; rewrite Q1, Q2; exact H).
  destruct (p_st s) eqn:ST; rewrite ?BP, ?EA, ?ES in E; cbn [bind] in E; cbv zeta in E; unfold held_st in H; rewrite ST in H.
  Ltac hs FD SM E ST := eapply FD; [exact E|]; first [exact I | apply SM; [try (symmetry; exact ST); first [exact ST|reflexivity]|reflexivity] | reflexivity | unfold held_st; cbn; rewrite ?ST; first [exact I|assumption|reflexivity] ].
  - brkE E; hs FD SM E ST.
  - match type of E with context[take_cmd bo s] => destruct (take_cmd bo s) as [s1| |] eqn:TK end.
    + brkE E; first [solve [hs FD SM E ST] | eapply FD; [exact E|]; unfold held_st; rewrite (take_st _ _ _ O TK); exact I].
    + brkE E; try discriminate; hs FD SM E ST.
    + brkE E; try discriminate; hs FD SM E ST.
  - brkE E; hs FD SM E ST.
  - brkE E; hs FD SM E ST.
  - set (s0 := if p_cmd s =? 4 then set_status 12 s else s) in E.
    assert (O0 : okd s0) by (unfold s0; destruct (p_cmd s =? 4); [destruct O; okd_tac|exact O]). assert (C0 : p_cmd s0 = p_cmd s) by (unfold s0; destruct (p_cmd s =? 4); reflexivity).
    assert (S0 : p_st s0 = P_OPR) by (unfold s0; destruct (p_cmd s =? 4); exact ST). clearbody s0.
    assert (S2 : forall x, (if Z.land (p_cmd s0) 7 =? 1 then let* s := print_event s0 in Ok (or_status SNS_CHNEND s) else Ok s0) = Ok x -> p_st x = P_OPR).
    { intros x Ex. destruct (Z.land (p_cmd s0) 7 =? 1) eqn:Q; [|injection Ex as <-; exact S0].
      pose proof (print_event_frame s0 O0 (or_introl (proj1 (Z.eqb_eq _ _) Q) : prints (p_cmd s0))) as PE. destruct (print_event s0) as [s3| |]; try discriminate. cbn [bind] in Ex. injection Ex as <-.
      destruct PE as (_ & _ & PE & _). exact (eq_trans PE S0). }
    destruct (if Z.land (p_cmd s0) 7 =? 1 then let* s := print_event s0 in Ok (or_status SNS_CHNEND s) else Ok s0) as [s3| |]; cbn [bind] in E.
    + specialize (S2 s3 eq_refl). brkE E; first [solve [hs FD SM E ST] | (eapply FD; [exact E|]); unfold held_st; cbn; rewrite ?S2; exact I].
    + brkE E; try discriminate; hs FD SM E ST.
    + brkE E; try discriminate; hs FD SM E ST.
  - brkE E; hs FD SM E ST.
  - destruct (negb (p_sel s)); [hs FD SM E ST|]. destruct (with_parity (p_data s)) as [w| |]; try (brkE E; discriminate). cbn [bind] in E. brkE E; hs FD SM E ST.
  - brkE E; try discriminate; hs FD SM E ST.
  - brkE E; hs FD SM E ST.
  - destruct (negb (p_sel s)); [hs FD SM E ST|]. destruct (_ && _) in E; [hs FD SM E ST|].
    set (s1 := if p_bsy s then or_status SNS_CTLEND s else s) in E. assert (S1 : p_st s1 = P_END) by (unfold s1; destruct (p_bsy s); exact ST). clearbody s1.
    destruct (with_parity (p_status s1)) as [w| |]; try discriminate. cbn [bind] in E. brkE E; (eapply FD; [exact E|]); unfold held_st; cbn; rewrite ?S1; exact I.
  - destruct (selecting4 t && (Z.land bo 255 =? a)); cbn [bind] in E; brkE E; hs FD SM E ST.
  - brkE E; hs FD SM E ST.
  - brkE E; hs FD SM E ST.
  - brkE E; hs FD SM E ST.
  - brkE E; hs FD SM E ST.
  - brkE E; hs FD SM E ST.
Qed.
Lemma run_held a l : is_byte a -> forall s s', okd s -> held_st s -> run a s l = Ok s' -> okd s' /\ held_st s'.
Proof.
  intros A. induction l as [|x l IH]; intros s s' O H E; cbn [run] in E; [injection E as <-; auto|].
  pose proof (astep_good a s x A O) as G. destruct (astep a s x) as [s1| |] eqn:E1; try discriminate. cbn [bind] in E. apply (IH s1); auto. clear IH E.
  destruct x as [t bo bi| |k]; cbn [astep] in E1.
  - destruct (dev_step a s t bo bi) as [[[y t'] b']| |] eqn:D; try discriminate. injection E1 as <-. exact (step_held _ _ _ _ _ _ _ _ A O H D).
  - injection E1 as <-. unfold fire. destruct (p_pend s); exact H.
  - destruct k; cbn [do_key] in E1; try (destruct (negb (p_ready s)); [apply print_key_same in E1; [|assumption|apply byte_const; reflexivity]; destruct E1 as [Q1 Q2]; unfold held_st; rewrite Q1, Q2; exact H|]);
      try (injection E1 as <-); repeat match goal with |- context[if ?b then _ else _] => destruct b | |- context[match ?f with Some _ => _ | None => _ end] => destruct f end; exact H.
Qed.
(** Tags that are those of a selection. *)
Lemma tags_eq t u : tags_eqb t u = true -> t = u.
Proof. unfold tags_eqb. intros H. repeat (apply andb_true_iff in H; destruct H as [H ?Q]). destruct t, u; cbn in *. repeat match goal with Q : Bool.eqb _ _ = true |- _ => apply Bool.eqb_prop in Q; subst end. reflexivity. Qed.
Lemma selecting_ok a t bo : selecting4 t && (Z.land bo 255 =? a) = true -> addressing a t bo.
Proof.
  intros H. apply andb_true_iff in H. destruct H as [H B]. apply Z.eqb_eq in B. unfold selecting4 in H. rewrite !orb_true_iff in H.
  destruct H as [[[H|H]|H]|H]; apply tags_eq in H; subst t; repeat split; assumption.
Qed.
Lemma quiet a s t bo bi s' t' b' : is_byte a -> okd s -> held_st s -> p_sel s = false -> p_adr s = false -> ~ resetting t -> dev_step a s t bo bi = Ok (s', t', b') ->
  drives t bi t' b' -> addressing a t bo \/ polling t.
Proof.
  intros A O H SL AD NR E D. destruct (bad_parity_ok bo) as [bad BP]. destruct (parity_odd a A) as (wa & EA & _).
  unfold dev_step in E. destruct (negb (opro t) && negb (supo t)) eqn:RS.
  { exfalso. apply NR. apply andb_true_iff in RS. rewrite !negb_true_iff in RS. exact RS. }
  assert (ND : forall x, Ok (x, t, bi) = Ok (s', t', b') -> addressing a t bo \/ polling t).
  { intros x Q. injection Q as _ <- <-. unfold drives in D. destruct D as [[D1 D2]|[[D1 D2]|[[D1 D2]|[[D1 D2]|[D1|D1]]]]]; congruence. }
  assert (NS : forall x, Ok (x, set_reqi true t, bi) = Ok (s', t', b') -> addressing a t bo \/ polling t).
  { intros x Q. injection Q as _ <- <-. unfold drives in D. cbn in D. destruct D as [[D1 D2]|[[D1 D2]|[[D1 D2]|[[D1 D2]|[D1|D1]]]]]; congruence. }
  assert (NT : forall x, Ok (x, set_reqi false t, bi) = Ok (s', t', b') -> addressing a t bo \/ polling t).
  { intros x Q. injection Q as _ <- <-. unfold drives in D. cbn in D. destruct D as [[D1 D2]|[[D1 D2]|[[D1 D2]|[[D1 D2]|[D1|D1]]]]]; congruence. }
  unfold held_st in H. destruct (p_st s) eqn:ST; try congruence; rewrite ?SL, ?AD, ?BP, ?EA in E; cbn [orb andb negb bind] in E; cbv zeta in E.
  - destruct (selecting4 t && (Z.land bo 255 =? a)) eqn:Q; [left; apply selecting_ok; exact Q|exact (ND _ E)].
  - exact (ND _ E).
  - exact (ND _ E).
  - exact (ND _ E).
  - destruct (tags_eqb t (T_sel true false false false false) && (Z.land bo 255 =? a)) eqn:Q.
    + left. apply selecting_ok. apply andb_true_iff in Q. destruct Q as [Q1 Q2]. unfold selecting4. rewrite Q1, Q2. reflexivity.
    + destruct (p_rdyd s); [exact (ND _ E)|]. destruct (p_end s); [|exact (ND _ E)].
      destruct (if Z.land _ 7 =? 1 then _ else _) in E; try discriminate. cbn [bind] in E. exact (ND _ E).
  - destruct (tags_eqb t (T_sel false true false false true) || tags_eqb t (T_sel false false false false true)) eqn:Q1.
    { right. apply orb_true_iff in Q1. destruct Q1 as [Q|Q]; apply tags_eq in Q; subst t; repeat split; auto. }
    destruct (tags_eqb t (T_sel false true true true false) || tags_eqb t (T_sel false false true true false)) eqn:Q2.
    { right. apply orb_true_iff in Q2. destruct Q2 as [Q|Q]; apply tags_eq in Q; subst t; repeat split; auto. }
    brkE E; first [exact (ND _ E)|exact (NS _ E)|exact (NT _ E)].
  - exact (ND _ E).
  - exact (ND _ E).
  - exact (ND _ E).
  - exact (ND _ E).
  - destruct (selecting4 t && (Z.land bo 255 =? a)) eqn:Q; [left; apply selecting_ok; exact Q|]. cbn [bind] in E. brkE E; exact (ND _ E).
  - exact (ND _ E).
  - destruct ((tags_eqb t (T_sel true false false false false) || tags_eqb t (T_sel true true false false false)) && (Z.land bo 255 =? a)) eqn:Q.
    + left. apply selecting_ok. apply andb_true_iff in Q. destruct Q as [Q1 Q2]. unfold selecting4. rewrite Q1, Q2. reflexivity.
    + rewrite AD in E. exact (ND _ E).
Qed.
