(** Every cycle. *)
From Verif Require Import P1443.Spec P1443.Proofs P1443.Proofs2.

Lemma byte_land bo : is_byte (Z.land bo 255). Proof. exact (land_byte bo). Qed.
Lemma land_low bo : Z.land (Z.land bo 255) 7 = Z.land bo 7. Proof. rewrite <- Z.land_assoc. reflexivity. Qed.
Lemma byte0 : is_byte 0. Proof. apply byte_const. reflexivity. Qed.
Lemma byte14 : is_byte 14. Proof. apply byte_const. reflexivity. Qed.
Lemma byte64 : is_byte 64. Proof. apply byte_const. reflexivity. Qed.
Lemma byte128 : is_byte 128. Proof. apply byte_const. reflexivity. Qed.
Lemma byte12 : is_byte 12. Proof. apply byte_const. reflexivity. Qed.
Lemma lor8 v : is_byte v -> is_byte (Z.lor v 8). Proof. intros H. apply lor_byte; [exact H|apply byte_const; reflexivity]. Qed.
Lemma lor4 v : is_byte v -> is_byte (Z.lor v 4). Proof. intros H. apply lor_byte; [exact H|apply byte_const; reflexivity]. Qed.
Lemma lor2 v : is_byte v -> is_byte (Z.lor v 2). Proof. intros H. apply lor_byte; [exact H|apply byte_const; reflexivity]. Qed.
Lemma lor32 v : is_byte v -> is_byte (Z.lor v 32). Proof. intros H. apply lor_byte; [exact H|apply byte_const; reflexivity]. Qed.
Lemma ldiff8 v : is_byte v -> is_byte (Z.ldiff v 8). Proof. intros H. apply ldiff_byte; [exact H|apply byte_const; reflexivity]. Qed.
#[export] Hint Resolve byte_land byte0 byte14 byte64 byte128 byte12 lor8 lor4 lor2 lor32 ldiff8 : pb.

Ltac okd_tac :=
  constructor; cbn [p_st p_sel p_req p_adr p_stk p_bsy p_sense p_cmd p_status p_data p_rdyd p_end p_done p_file p_buf p_col p_row p_ready p_cnt p_pend
    set_st set_sel set_req set_adr set_stk set_bsy set_sense set_cmd set_status set_data set_rdyd set_end set_done set_file set_buf set_col set_row set_ready set_cnt set_pend
    or_sense or_status clr_status reject]; auto with pb; try lia; try (let H := fresh in intros H; first [exfalso; lia | match goal with F : _ = 120 -> _ |- _ => destruct (F H) as (?F1 & ?F2 & ?F3) end; repeat split; first [assumption | discriminate | reflexivity | congruence]]).

Lemma undefined_ext s s' : p_cmd s = p_cmd s' -> p_file s = p_file s' -> p_row s = p_row s' -> undefined_print s -> undefined_print s'.
Proof. intros A B C. unfold undefined_print, line. rewrite A, B, C. trivial. Qed.

Lemma begin_ok c s : okd s -> is_byte c -> okd (begin_cmd c s).
Proof. intros [] C. unfold begin_cmd. okd_tac. Qed.
Lemma obey_ok s : okd s -> p_col s = 0 -> p_st s = P_CMD ->
  match obey (p_cmd s) s with Ok s' => okd s' | UB => Z.land (p_cmd s) 7 = 3 /\ undefined_print s | NoFuel => False end.
Proof.
  intros O K T. unfold obey. set (c := p_cmd s).
  repeat match goal with |- context[if Z.land c 7 =? ?k then _ else _] => destruct (Z.land c 7 =? k) eqn:?Q end.
  - exact O.
  - destruct (skip_bad c || space_bad c); destruct O; unfold reject; okd_tac.
  - destruct O; okd_tac.
  - destruct (skip_bad c || space_bad c); [destruct O; unfold reject; okd_tac|].
    assert (O2 : okd (set_sense 0 s)) by (destruct O; okd_tac).
    assert (P2 : prints (p_cmd (set_sense 0 s))) by (right; change (p_cmd (set_sense 0 s)) with c; lia).
    pose proof (print_event_frame _ O2 P2) as PE. destruct (print_event (set_sense 0 s)) as [s2| |]; cbn [bind].
    + destruct PE as (O3 & _ & A1 & A2 & A3 & A4 & _). cbn in A1, A2, A3, A4. destruct O3. okd_tac.
    + split; [lia|]. apply (undefined_ext (set_sense 0 s)); [reflexivity..|exact PE].
    + exact PE.
  - destruct (negb (c =? 4)); destruct O; unfold reject; okd_tac.
  - destruct O; unfold reject; okd_tac.
Qed.
Lemma take_ok s bo : okd s ->
  match take_cmd bo s with
  | Ok s' => okd s'
  | UB => p_ready s = true /\ p_file s <> None /\ Z.land bo 7 = 3 /\ undefined_print (set_cmd (Z.land bo 255) s)
  | NoFuel => False end.
Proof.
  intros O. destruct (bad_parity_ok bo) as [bad BP]. unfold take_cmd.
  pose proof (begin_ok (Z.land bo 255) s O (byte_land bo)) as O1.
  assert (C1 : p_cmd (begin_cmd (Z.land bo 255) s) = Z.land bo 255) by reflexivity. assert (R1 : p_ready (begin_cmd (Z.land bo 255) s) = p_ready s) by reflexivity.
  assert (F1 : p_file (begin_cmd (Z.land bo 255) s) = p_file s) by reflexivity.
  assert (W1 : p_row (begin_cmd (Z.land bo 255) s) = p_row s) by reflexivity. assert (K1 : p_col (begin_cmd (Z.land bo 255) s) = 0) by reflexivity. assert (T1 : p_st (begin_cmd (Z.land bo 255) s) = P_CMD) by reflexivity.
  set (s1 := begin_cmd (Z.land bo 255) s) in *. clearbody s1. unfold no_paper.
  destruct (negb (p_ready s1) || match p_file s1 with None => true | _ => false end) eqn:Q.
  { destruct O1. okd_tac. }
  apply orb_false_iff in Q. destruct Q as [Q1 Q2]. pose proof (obey_ok s1 O1 K1 T1) as OB. rewrite C1 in OB.
  destruct (obey (Z.land bo 255) s1) as [s2| |]; cbn [bind].
  - rewrite BP. cbn [bind]. destruct bad; [destruct OB; okd_tac|exact OB].
  - destruct OB as [L U]. refine (conj _ (conj _ (conj _ _))).
    + destruct (p_ready s1); [congruence|discriminate].
    + intros N. rewrite F1, N in Q2. discriminate.
    + rewrite land_low in L. exact L.
    + eapply undefined_ext; [| | |exact U]; cbn; assumption.
  - exact OB.
Qed.

Definition good (s : dev) (t : tags) (bo bi : Z) (r : res (dev * tags * Z)) : Prop :=
  match r with Ok (s', t', b') => okd s' /\ (b' = bi \/ odd9 b') | UB => undefined_cycle s t bo | NoFuel => False end.
Lemma parity_odd v : is_byte v -> exists w, with_parity v = Ok w /\ odd9 w.
Proof. intros H. destruct (with_parity_ok v H) as (y & E & O & _ & R). exists y. split; [exact E|]. split; assumption. Qed.
Lemma upd_bytes l n b : Forall is_byte l -> is_byte b -> Forall is_byte (upd l n b).
Proof.
  intros F B. revert n. induction l as [|y l IH]; intros n; [destruct n; constructor|]. inversion F; subst. destruct n; cbn; constructor; auto.
Qed.
Ltac brk := repeat (match goal with
  | |- context[if ?b then _ else _] => lazymatch b with context[if _ then _ else _] => fail | _ => destruct b end
  end; cbn [bind]; cbv beta iota).
Ltac fin := cbn [good]; first [split; [okd_tac|first [left; reflexivity|right; assumption]] | idtac].

Lemma step_good a s t bo bi : is_byte a -> okd s -> good s t bo bi (dev_step a s t bo bi).
Proof.
  intros A O. destruct (bad_parity_ok bo) as [bad BP]. destruct (parity_odd a A) as (wa & EA & OA). destruct (parity_odd _ (ok_status s O)) as (ws & ES & OS).
  unfold dev_step. destruct (negb (opro t) && negb (supo t)) eqn:RST.
  { cbn [good]. split; [destruct O; okd_tac|left; reflexivity]. }
  assert (NR : ~ resetting t). { intros [R1 R2]. rewrite R1, R2 in RST. discriminate. }
  destruct (p_st s) eqn:ST.
  - destruct (selecting4 t && _); [|split; [exact O|left; reflexivity]]. rewrite ?BP. cbn [bind]. destruct bad; (split; [destruct O; okd_tac|left; reflexivity]).
  - rewrite EA. cbn [bind]. set (t1 := if p_adr s || p_sel s then set_selo_opri t else t).
    assert (C1 : cmdo t1 = cmdo t) by (unfold t1; destruct (p_adr s || p_sel s); reflexivity).
    assert (D1 : adro t1 = adro t) by (unfold t1; destruct (p_adr s || p_sel s); reflexivity). clearbody t1.
    destruct (p_adr s && negb (adro t1) && negb (cmdo t1)); [split; [destruct O; okd_tac|right; exact OA]|].
    destruct (p_sel s && negb (adro t1) && negb (cmdo t1)); [split; [exact O|right; exact OA]|].
    destruct (p_sel s && adro t1) eqn:Q1; [split; [destruct O; okd_tac|left; reflexivity]|].
    destruct (p_sel s && cmdo t1) eqn:Q2; [|split; [exact O|left; reflexivity]].
    pose proof (take_ok s bo O) as T. destruct (take_cmd bo s) as [s2| |]; cbn [bind good].
    + split; [exact T|left; reflexivity].
    + split; [exact NR|left]. apply andb_true_iff in Q2. destruct Q2 as [Q2 Q3]. rewrite Q2 in Q1. cbn in Q1.
      split; [exact ST|]. split; [exact Q2|]. split; [congruence|]. split; [congruence|]. exact T.
    + exact T.
  - destruct (p_sel s); [|split; [exact O|left; reflexivity]]. cbn [cmdo stai set_selo_opri set_opri set_selo].
    destruct (cmdo t && stai t); [split; [destruct O; okd_tac|left; reflexivity]|]. destruct (cmdo t); [split; [exact O|left; reflexivity]|].
    rewrite ES. cbn [bind]. destruct (srvo _); (split; [destruct O; okd_tac|right; exact OS]).
  - destruct (p_sel s); [|split; [destruct O; okd_tac|left; reflexivity]]. destruct (srvo _); [split; [exact O|left; reflexivity]|].
    destruct ((p_cmd s =? 0) || _); [split; [destruct O; okd_tac|left; reflexivity]|].
    destruct (bit (p_status s) SNS_CHNEND); [split; [destruct O; okd_tac|left; reflexivity]|].
    destruct (_ && negb (p_cmd s =? 4)); (split; [destruct O; okd_tac|left; reflexivity]).
  - set (t1 := if p_sel s then set_selo false t else t). clearbody t1.
    assert (OB : odd9 SNS_BSY) by (split; [unfold SNS_BSY; lia|reflexivity]).
    destruct (negb (p_sel s) && _ && _); [split; [destruct O; okd_tac|right; exact OB]|].
    destruct (p_sel s && _ && _); [split; [destruct O; okd_tac|left; reflexivity]|].
    destruct (p_sel s && tags_eqb t1 (T_opr true true false true)); [split; [exact O|right; exact OB]|].
    destruct (p_sel s && _); [split; [destruct O; okd_tac|left; reflexivity]|].
    destruct (p_rdyd s) eqn:RD.
    { split; [|left; reflexivity]. destruct (bit (p_cmd s) 1); destruct O; okd_tac. }
    destruct (p_end s) eqn:EN; [|split; [exact O|left; reflexivity]].
    set (s1 := if p_cmd s =? 4 then set_status 12 s else s).
    assert (O1 : okd s1) by (unfold s1; destruct (p_cmd s =? 4); [destruct O; okd_tac|exact O]).
    assert (C1 : p_cmd s1 = p_cmd s /\ p_file s1 = p_file s /\ p_row s1 = p_row s /\ p_st s1 = P_OPR /\ p_rdyd s1 = false /\ p_end s1 = true) by (unfold s1; destruct (p_cmd s =? 4); repeat split; assumption).
    clearbody s1. destruct C1 as (C1 & C2 & C3 & C4 & C5 & C6).
    assert (G : forall x, okd x -> p_rdyd x = false -> p_end x = true -> good s t bo bi (Ok (
       (let y := if bit (p_status x) SNS_CHNEND then set_st P_DATA_END x else x in if bit (p_status y) SNS_DEVEND then set_st P_END y else y), t1, bi))).
    { intros x X X1 X2. cbv zeta. split; [|left; reflexivity].
      assert (Y : okd (if bit (p_status x) SNS_CHNEND then set_st P_DATA_END x else x)) by (destruct (bit (p_status x) SNS_CHNEND); [destruct X; okd_tac|exact X]).
      destruct (bit (p_status (if bit (p_status x) SNS_CHNEND then set_st P_DATA_END x else x)) SNS_DEVEND); [|exact Y].
      destruct (bit (p_status x) SNS_CHNEND); destruct X; okd_tac. }
    rewrite C1. destruct (Z.land (p_cmd s) 7 =? 1) eqn:W.
    + assert (P1 : prints (p_cmd s1)) by (left; rewrite C1; lia). pose proof (print_event_frame s1 O1 P1) as PE. destruct (print_event s1) as [s2| |]; cbn [bind].
      * destruct PE as (O2 & A1 & A2 & A3 & A4 & A5 & A6). apply G; [destruct O2; okd_tac|cbn; congruence|cbn; congruence].
      * split; [exact NR|right; left]. repeat (split; [assumption || lia|]). apply (undefined_ext s1); assumption.
      * exact PE.
    + cbn [bind]. apply G; assumption.
  - rewrite EA. cbn [bind]. cbv zeta. cbn [p_end p_status p_cmd set_adr set_sel].
    assert (NF : p_end s = false -> p_col s < 120). { intros E. pose proof (ok_col s O). destruct (Z.eq_dec (p_col s) 120) as [Q|Q]; [|lia]. destruct (ok_full s O Q) as (_ & F & _). congruence. }
    destruct (p_end s) eqn:EN; brk; (split; [|first [left; reflexivity|right; exact OA]]); try exact O; (destruct O; okd_tac).
  - destruct (p_sel s) eqn:SL; [|split; [destruct O; okd_tac|left; reflexivity]]. cbn [negb].
    destruct (Z_le_dec 0 (p_data s)) as [D0|D0].
    2: { unfold with_parity, tab. replace (p_data s <? 0) with true by lia. cbn [bind good]. split; [exact NR|right; right]. repeat (split; [assumption|]). unfold is_byte. lia. }
    destruct (Z_lt_dec (p_data s) 256) as [D1|D1].
    2: { unfold with_parity, tab. replace (p_data s <? 0) with false by lia. replace (nth_error odd_parity (Z.to_nat (p_data s))) with (@None Z).
         - cbn [bind good]. split; [exact NR|right; right]. repeat (split; [assumption|]). unfold is_byte. lia.
         - symmetry. apply nth_error_None. replace (length odd_parity) with 256%nat by (vm_compute; reflexivity). lia. }
    destruct (parity_odd (p_data s) (conj D0 D1)) as (wd & ED & OD). rewrite ED. cbn [bind].
    brk; (split; [|right; exact OD]); try exact O; destruct O; okd_tac.
  - destruct (p_sel s) eqn:SL; [|split; [destruct O; okd_tac|left; reflexivity]]. cbn [negb]. cbv zeta.
    destruct (srvo _).
    + rewrite ?BP. cbn [bind]. destruct bad; [split; [destruct O; okd_tac|left; reflexivity]|].
      cbn [p_col set_rdyd]. pose proof (ok_col s O) as OC. assert (C2 : p_col s <> 120). { intros E. destruct (ok_full s O E) as (_ & _ & N). congruence. }
      replace ((p_col s <? 0) || (144 <=? p_col s)) with false by (symmetry; apply orb_false_iff; split; lia).
      cbn [selo set_srvi set_selo_opri set_opri set_selo negb]. cbn [p_cnt set_cnt set_rdyd set_col set_buf set_st set_data p_col p_buf].
      destruct (p_cnt s + 1 =? 3); cbn [p_col set_sel set_cnt set_rdyd set_col]; destruct (p_col s + 1 =? 120) eqn:E; (split; [|left; reflexivity]);
        destruct O; okd_tac; try (rewrite upd_length; assumption); try (apply upd_bytes; auto with pb); try (intros; repeat split; discriminate).
    + destruct (cmdo _); (split; [destruct O; okd_tac|left; reflexivity]).
  - destruct (p_sel s) eqn:SL; [|split; [destruct O; okd_tac|left; reflexivity]]. cbn [negb]. rewrite ES. cbn [bind].
    brk; (split; [|right; exact OS]); try exact O; destruct O; okd_tac.
  - destruct (p_sel s) eqn:SL; [|split; [destruct O; okd_tac|left; reflexivity]]. cbn [negb]. cbv zeta.
    destruct (_ && negb (stai _)); [split; [exact O|left; reflexivity]|].
    set (s1 := if p_bsy s then or_status SNS_CTLEND s else s). assert (O1 : okd s1) by (unfold s1; destruct (p_bsy s); [destruct O; okd_tac|exact O]).
    assert (S1 : p_st s1 = P_END) by (unfold s1; destruct (p_bsy s); exact ST).
    clearbody s1. destruct (parity_odd _ (ok_status s1 O1)) as (w1 & E1 & OD1). rewrite E1. cbn [bind].
    brk; (split; [|right; exact OD1]); try exact O1; destruct O1; okd_tac.
  - destruct (selecting4 t && (Z.land bo 255 =? a)); [rewrite ?BP|]; cbn [bind]; cbv zeta.
    + assert (O1 : okd (set_adr true (set_st P_STACK_SEL (if bad then or_sense S_BUSCHK s else s)))) by (destruct bad; destruct O; okd_tac).
      destruct (_ && tags_eqb _ _); (split; [|left; reflexivity]); [destruct O1; okd_tac|exact O1].
    + destruct (_ && tags_eqb _ _); (split; [|left; reflexivity]); [destruct O; okd_tac|exact O].
  - rewrite EA. cbn [bind]. rewrite ?BP. cbn [bind]. cbv zeta. brk; (split; [|first [left; reflexivity|right; exact OA]]); try exact O; destruct O; okd_tac.
  - rewrite ES. cbn [bind]. brk; (split; [|right; exact OS]); try exact O; destruct O; okd_tac.
  - rewrite ES. cbn [bind]. brk; (split; [|right; exact OS]); try exact O; destruct O; okd_tac.
  - brk; (split; [|left; reflexivity]); try exact O; destruct O; okd_tac.
  - assert (OB : odd9 (256 + SNS_SMS + SNS_BSY)) by (split; [unfold SNS_SMS, SNS_BSY; lia|reflexivity]).
    cbv zeta. brk; (split; [|first [left; reflexivity|right; exact OB]]); try exact O; destruct O; okd_tac.
Qed.
