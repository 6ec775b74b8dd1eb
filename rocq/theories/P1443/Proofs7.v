(** Answers to commands. *)
From Verif Require Import P1443.Spec P1443.Proofs P1443.Proofs2 P1443.Proofs3 P1443.Proofs4 P1443.Proofs5 P1443.Proofs6.

Definition selected (c : Z) (s : dev) : dev := begin_cmd c (set_adr false (set_sel true (set_st P_SEL s))).
Definition tags_status : tags := mkT false false false false false true true true false true false false.
Section Ask.
  Variables a pa : Z.
  Hypothesis A : is_byte a.
  Hypothesis PA : with_parity a = Ok pa.
  Ltac rd := cbn -[obey with_parity bad_parity print_event Z.add skip_bad space_bad upd Z.ltb Z.leb Z.to_nat].
  Ltac nrm := cbv beta iota zeta delta [set_st set_sel set_req set_adr set_stk set_bsy set_sense set_cmd set_status set_data set_rdyd set_end set_done set_file set_buf set_col set_row set_ready set_cnt set_pend p_st p_sel p_req p_adr p_stk p_bsy p_sense p_cmd p_status p_data p_rdyd p_end p_done p_file p_buf p_col p_row p_ready p_cnt p_pend or_sense or_status clr_status begin_cmd set_selo_opri set_selo set_opri set_adri set_stai set_srvi set_reqi chan_tags selo adro cmdo srvo supo hldo opro opri adri stai srvi reqi o_sel o_adr o_cmd o_srv o_sup o_hld o_select o_poll o_command o_service held nothing free].
  Ltac cycs tac fin := first [apply talk_nil | eapply talk_cyc; [unfold dev_step; rd; repeat (progress (tac; rd)); nrm; reflexivity | cycs tac fin | cbn; fin; reflexivity | cbn; fin; reflexivity ]].

  Lemma ask_gen s f pc c bad s1 w bi : idle s f -> Z.land pc 255 = c -> bad_parity pc = Ok bad -> obey c (selected c s) = Ok s1 -> p_st s1 = P_CMD -> p_sel s1 = true ->
    let s2 := if bad then or_sense S_BUSCHK (set_status CDU (set_cmd 0 s1)) else s1 in with_parity (p_status s2) = Ok w -> Z.land w 255 = p_status s2 ->
    talk a (ask pa pc) s free bi = Ok (s2, tags_status, w, [p_status s2], []).
  Proof.
    intros I LC BP OB ST SL s2 EW LW. destruct s as [st sel req adr stk bsy sense cmd status data rdyd en done file buf col row ready cnt pend].
    destruct I as (I1 & I2 & I3 & I4 & I5 & I6 & I7 & I8). cbn in I1, I2, I3, I4, I5, I6. subst st sel adr bsy ready file.
    pose proof (pa_low a pa A PA) as LA. pose proof (pa_good a pa A PA) as GA. unfold ask.
    assert (S2 : p_st s2 = P_CMD /\ p_sel s2 = true) by (unfold s2; destruct bad; split; assumption). destruct S2 as [ST2 SL2].
    eapply talk_cyc; [unfold dev_step; rd; rewrite LA, Z.eqb_refl, GA; rd; nrm; reflexivity | | reflexivity | reflexivity].
    eapply talk_cyc; [unfold dev_step; rd; rewrite PA; rd; nrm; reflexivity | | reflexivity | reflexivity].
    eapply (talk_cyc a _ _ _ _ _ _ s2).
    - unfold dev_step. rd. rewrite PA. rd. unfold take_cmd. rewrite LC. unfold selected in OB. nrm. cbn [no_paper p_ready p_file negb orb]. unfold begin_cmd in OB. cbn in OB. unfold begin_cmd.
      cbn [p_sel p_req p_adr p_stk p_bsy p_sense p_data p_file p_buf p_row p_ready p_pend no_paper negb orb]. rewrite OB. cbn [bind]. rewrite BP. cbn [bind]. reflexivity.
    - eapply talk_cyc; [unfold dev_step; rewrite ST2, SL2; cbn -[with_parity]; rewrite EW; cbn; reflexivity|apply talk_nil|reflexivity|reflexivity].
    - cbn. rewrite LW. reflexivity.
    - reflexivity.
  Qed.
  Lemma low9 v : is_byte v -> exists w, with_parity v = Ok w /\ Z.land w 255 = v.
  Proof. intros H. destruct (with_parity_ok v H) as (y & E & _ & L & _). exists y. split; assumption. Qed.
  Lemma pc_low c pc : is_byte c -> with_parity c = Ok pc -> Z.land pc 255 = c.
  Proof. intros C E. destruct (with_parity_ok c C) as (y & E2 & _ & L & _). rewrite E in E2. injection E2 as <-. exact L. Qed.
  Lemma known c : is_byte c -> skip_bad c || space_bad c = false -> (Z.land c 7 = 1 -> writes_ c) /\ (Z.land c 7 = 3 -> moves_ c).
  Proof.
    intros C H.
    assert (S : forall w : bool, Z.land c 7 = (if w then 1 else 3) -> (0 <= c / 8 <= 3 /\ c = space_cmd w (c / 8)) \/ (1 <= (c - 128) / 8 <= 12 /\ c = skip_cmd w ((c - 128) / 8))).
    { intros w. pose proof (sweep 256 (fun c => (skip_bad c || space_bad c) || negb (Z.land c 7 =? (if w then 1 else 3)) || ((c / 8 <=? 3) && (0 <=? c / 8) && (c =? space_cmd w (c / 8))) ||
        ((1 <=? (c - 128) / 8) && ((c - 128) / 8 <=? 12) && (c =? skip_cmd w ((c - 128) / 8)))) ltac:(destruct w; vm_compute; reflexivity) c C) as S. cbv beta in S. rewrite H in S. cbn [orb] in S.
      intros L. rewrite L, Z.eqb_refl in S. cbn [negb orb] in S. rewrite orb_true_iff, !andb_true_iff in S. lia. }
    split; intros L.
    - destruct (S true L) as [[R E]|[R E]]; [left; exists (c / 8)|right; exists ((c - 128) / 8)]; split; assumption.
    - destruct (S false L) as [[R E]|[R E]]; [left; exists (c / 8)|right; exists ((c - 128) / 8)]; split; assumption.
  Qed.
  Lemma known_good c : (writes_ c -> is_byte c /\ Z.land c 7 = 1 /\ skip_bad c || space_bad c = false) /\ (moves_ c -> is_byte c /\ Z.land c 7 = 3 /\ skip_bad c || space_bad c = false).
  Proof.
    assert (S : forall (w : bool) n, (0 <= n <= 3 -> is_byte (space_cmd w n) /\ Z.land (space_cmd w n) 7 = (if w then 1 else 3) /\ skip_bad (space_cmd w n) || space_bad (space_cmd w n) = false) /\
      (1 <= n <= 12 -> is_byte (skip_cmd w n) /\ Z.land (skip_cmd w n) 7 = (if w then 1 else 3) /\ skip_bad (skip_cmd w n) || space_bad (skip_cmd w n) = false)).
    { intros w n. split; intros N.
      - pose proof (sweep 4 (fun n => let c := space_cmd w n in (0 <=? c) && (c <? 256) && (Z.land c 7 =? (if w then 1 else 3)) && negb (skip_bad c || space_bad c)) ltac:(destruct w; vm_compute; reflexivity) n ltac:(lia)) as S.
        cbv zeta beta in S. rewrite !andb_true_iff, negb_true_iff in S. unfold is_byte. repeat split; try lia; tauto.
      - pose proof (sweep 13 (fun n => let c := skip_cmd w n in (n =? 0) || (0 <=? c) && (c <? 256) && (Z.land c 7 =? (if w then 1 else 3)) && negb (skip_bad c || space_bad c)) ltac:(destruct w; vm_compute; reflexivity) n ltac:(lia)) as S.
        cbv zeta beta in S. replace (n =? 0) with false in S by lia. cbn [orb] in S. rewrite !andb_true_iff, negb_true_iff in S. unfold is_byte. repeat split; try lia; tauto. }
    split; intros [(n & N & ->)|(n & N & ->)]; first [exact (proj1 (S true n) N)|exact (proj2 (S true n) N)|exact (proj1 (S false n) N)|exact (proj2 (S false n) N)].
  Qed.
  Definition same_paper (s s' : dev) : Prop := p_file s' = p_file s /\ p_row s' = p_row s.
  (** What [obey] does, command by command. *)
  Lemma obey_cases c s : is_byte c ->
    (writes_ c -> obey c s = Ok (set_rdyd true (set_sense 0 s))) /\
    (c = 4 -> obey c s = Ok (set_end true (set_rdyd true (set_data (p_sense s) s)))) /\
    (Z.land c 7 = 0 -> obey c s = Ok s) /\
    (moves_ c -> obey c s = let* s := print_event (set_sense 0 s) in Ok (set_end true (set_status SNS_CHNEND s))) /\
    (~ writes_ c -> ~ moves_ c -> c <> 4 -> Z.land c 7 <> 0 -> exists c', obey c s = Ok (set_sense S_CMDREJ (set_status CDU (set_cmd c' s))) \/ obey c s = Ok (set_sense S_CMDREJ (set_status CDU s))).
  Proof.
    intros C. unfold obey. repeat split.
    - intros W. destruct (proj1 (known_good c) W) as (_ & L & G). rewrite L, G. reflexivity.
    - intros ->. reflexivity.
    - intros ->. reflexivity.
    - intros W. destruct (proj2 (known_good c) W) as (_ & L & G). rewrite L, G. reflexivity.
    - intros NW NM N4 N0. exists 0. replace (Z.land c 7 =? 0) with false by lia.
      destruct (Z.land c 7 =? 1) eqn:Q1; [destruct (skip_bad c || space_bad c) eqn:G; [left; destruct s; reflexivity|exfalso; apply NW; apply (known c C G); lia]|].
      destruct (Z.land c 7 =? 2) eqn:Q2; [right; reflexivity|].
      destruct (Z.land c 7 =? 3) eqn:Q3; [destruct (skip_bad c || space_bad c) eqn:G; [left; destruct s; reflexivity|exfalso; apply NM; apply (known c C G); lia]|].
      replace (c =? 4) with false by lia. cbn [negb]. destruct (Z.land c 7 =? 4); left; reflexivity.
  Qed.
  (** The answers. *)
  Lemma idle_sel_okd s f c : idle s f -> is_byte c -> is_byte (p_sense s) -> 0 <= p_row s <= 66 -> okd (selected c s).
  Proof. intros (I1 & I2 & I3 & I4 & I5 & I6 & I7 & I8) C SN R. unfold selected, begin_cmd. constructor; cbn; try assumption; try apply byte0; try lia. Qed.
  Lemma answer_simple s f pc c bi : idle s f -> is_byte c -> with_parity c = Ok pc -> is_byte (p_sense s) ->
    (writes_ c -> exists s' t w, talk a (ask pa pc) s free bi = Ok (s', t, w, [0], []) /\ p_sense s' = 0 /\ same_paper s s') /\
    (c = 4 \/ Z.land c 7 = 0 -> exists s' t w, talk a (ask pa pc) s free bi = Ok (s', t, w, [0], []) /\ p_sense s' = p_sense s /\ same_paper s s') /\
    (~ writes_ c -> ~ moves_ c -> c <> 4 -> Z.land c 7 <> 0 -> exists s' t w, talk a (ask pa pc) s free bi = Ok (s', t, w, [14], []) /\ p_sense s' = 128 /\ same_paper s s').
  Proof.
    intros I C PC SN. destruct (obey_cases c (selected c s) C) as (W & F & Z0 & _ & R).
    pose proof (pc_low c pc C PC) as LC. pose proof (parity_good c pc C PC) as GC.
    destruct (low9 0 byte0) as (w0 & E0 & L0). destruct (low9 14 byte14) as (w14 & E14 & L14).
    refine (conj _ (conj _ _)).
    - intros H. specialize (W H). do 3 eexists. split; [exact (ask_gen s f pc c false _ w0 bi I LC GC W eq_refl eq_refl E0 L0)|]. split; [reflexivity|split; reflexivity].
    - intros [H|H].
      + specialize (F H). do 3 eexists. split; [exact (ask_gen s f pc c false _ w0 bi I LC GC F eq_refl eq_refl E0 L0)|]. split; [reflexivity|split; reflexivity].
      + specialize (Z0 H). do 3 eexists. split; [exact (ask_gen s f pc c false _ w0 bi I LC GC Z0 eq_refl eq_refl E0 L0)|]. split; [reflexivity|split; reflexivity].
    - intros H1 H2 H3 H4. destruct (R H1 H2 H3 H4) as (c' & [Q|Q]); do 3 eexists.
      + split; [exact (ask_gen s f pc c false _ w14 bi I LC GC Q eq_refl eq_refl E14 L14)|]. split; [reflexivity|split; reflexivity].
      + split; [exact (ask_gen s f pc c false _ w14 bi I LC GC Q eq_refl eq_refl E14 L14)|]. split; [reflexivity|split; reflexivity].
  Qed.
  Lemma lines_space n : 0 <= n <= 3 -> lines_of (space_cmd false n) = n.
  Proof. intros N. pose proof (sweep 4 (fun n => lines_of (space_cmd false n) =? n) ltac:(vm_compute; reflexivity) n ltac:(lia)) as S. cbv beta in S. lia. Qed.
  Lemma lines_skip w n : 1 <= n <= 12 -> lines_of (skip_cmd w n) = 16 + n /\ Z.land (16 + n) 15 = n.
  Proof. intros N. pose proof (sweep 13 (fun n => (lines_of (skip_cmd w n) =? 16 + n) && (Z.land (16 + n) 15 =? n)) ltac:(destruct w; vm_compute; reflexivity) n ltac:(lia)) as S. cbv beta in S. lia. Qed.
  Lemma answer_move s f pc c n bi : idle s f -> with_parity c = Ok pc -> is_byte (p_sense s) -> 0 <= p_row s <= 66 ->
    ((exists k, 0 <= k <= 3 /\ c = space_cmd false k /\ n = Z.to_nat k /\ line s + k <= 67) \/
     (exists k, 1 <= k <= 12 /\ c = skip_cmd false k /\ line s < hole k /\ n = Z.to_nat (hole k - line s - 1))) ->
    exists s' t w, talk a (ask pa pc) s free bi = Ok (s', t, w, [8], []) /\ p_sense s' = 0 /\ p_file s' = Some (f ++ newlines n) /\ line s' = line s + Z.of_nat n.
  Proof.
    intros I PC SN R M. assert (MC : moves_ c) by (destruct M as [(k & K1 & K2 & _)|(k & K1 & K2 & _)]; [left|right]; exists k; auto).
    destruct (proj2 (known_good c) MC) as (C & L & G). destruct (obey_cases c (selected c s) C) as (_ & _ & _ & MV & _). specialize (MV MC).
    pose proof (pc_low c pc C PC) as LC. pose proof (parity_good c pc C PC) as GC. destruct (low9 8 ltac:(apply byte_const; reflexivity)) as (w8 & E8 & L8).
    pose proof (idle_sel_okd s f c I C SN R) as O. assert (O2 : okd (set_sense 0 (selected c s))) by (destruct O; okd_tac).
    assert (CM : p_cmd (set_sense 0 (selected c s)) = c) by reflexivity. assert (RW : p_row (set_sense 0 (selected c s)) = p_row s) by reflexivity.
    assert (FL : p_file (set_sense 0 (selected c s)) = Some f) by (unfold idle in I; apply I).
    assert (P2 : prints (p_cmd (set_sense 0 (selected c s)))) by (right; exact L).
    assert (W0 : wr c = false) by (unfold wr; rewrite L; reflexivity).
    assert (PL : exists tm, print_line (set_sense 0 (selected c s)) = Ok (moved false (set_sense 0 (selected c s)) f n, tm)).
    { destruct M as [(k & K1 & K2 & K3 & K4)|(k & K1 & K2 & K3 & K4)].
      - pose proof (print_space _ f (okd_buf _ O2) P2 FL ltac:(lia)) as PS. rewrite CM, RW in PS. unfold line in K4. rewrite K2 in PS at 1 2. rewrite lines_space in PS by assumption. specialize (PS ltac:(lia) ltac:(lia)). cbv zeta in PS.
        rewrite W0 in PS. replace (lines_of c) with k in PS by (rewrite K2, lines_space; auto). rewrite <- K3 in PS. eexists. exact PS.
      - pose proof (lines_skip false k K1) as [LS LK]. pose proof (print_skip _ f (okd_buf _ O2) FL ltac:(lia)) as PS. rewrite CM in PS. cbv zeta in PS. rewrite W0 in PS. replace (lines_of c) with (16 + k) in PS by (rewrite K2, LS; auto).
        rewrite LK in PS. specialize (PS ltac:(lia) K3). eexists. rewrite K4. exact PS. }
    destruct PL as [tm E]. unfold print_event in MV. rewrite E in MV. cbn [bind] in MV.
    do 3 eexists. split.
    - refine (ask_gen s f pc c false _ w8 bi I LC GC MV _ _ E8 L8); destruct (tm =? 0); reflexivity.
    - destruct (tm =? 0); (split; [reflexivity|split; [reflexivity|unfold line; cbn; lia]]).
  Qed.
  (** A command with the wrong parity. *)
  Lemma answer_parity s f pc bi : idle s f -> bad_parity pc = Ok true -> is_byte (p_sense s) -> Z.land pc 7 <> 3 ->
    exists s' t w, talk a (ask pa pc) s free bi = Ok (s', t, w, [14], []) /\ bit (p_sense s') 32 = true /\ same_paper s s'.
  Proof.
    intros I BP SN NM. set (c := Z.land pc 255). assert (C : is_byte c) by apply byte_land.
    assert (B32 : forall v, bit (Z.lor v 32) 32 = true).
    { intros v. unfold bit. apply negb_true_iff, Z.eqb_neq. intros Q. assert (T : Z.testbit (Z.land (Z.lor v 32) 32) 5 = false) by (rewrite Q; apply Z.bits_0).
      rewrite Z.land_spec, Z.lor_spec in T. change (Z.testbit 32 5) with true in T. rewrite orb_true_r in T. discriminate. }
    assert (OB : exists s1, obey c (selected c s) = Ok s1 /\ p_st s1 = P_CMD /\ p_sel s1 = true /\ same_paper s s1).
    { destruct (obey_cases c (selected c s) C) as (W & F & Z0 & _ & R).
      assert (L : Z.land c 7 <> 3) by (unfold c; rewrite land_low; exact NM).
      unfold obey. destruct (Z.land c 7 =? 0); [eexists; repeat split|]. destruct (Z.land c 7 =? 1); [destruct (_ || _); eexists; repeat split|].
      destruct (Z.land c 7 =? 2); [eexists; repeat split|]. replace (Z.land c 7 =? 3) with false by lia.
      destruct (Z.land c 7 =? 4); [destruct (negb _); eexists; repeat split|]. eexists; repeat split. }
    destruct OB as (s1 & OB & ST & SL & SP). destruct (low9 14 byte14) as (w14 & E14 & L14).
    do 3 eexists. split; [exact (ask_gen s f pc c true s1 w14 bi I eq_refl BP OB ST SL E14 L14)|]. split; [apply B32|exact SP].
  Qed.
  (** Sense, from the beginning to the end. *)
  Lemma sense_whole s f p4 bi : idle s f -> with_parity 4 = Ok p4 -> is_byte (p_sense s) ->
    exists s' b', talk a (sense_all pa p4) s free bi = Ok (s', free, b', [0; 12], [p_sense s]) /\ idle s' f /\ p_sense s' = p_sense s /\ line s' = line s.
  Proof.
    intros I P4 SN. destruct s as [st sel req adr stk bsy sense cmd status data rdyd en done file buf col row ready cnt pend].
    destruct I as (I1 & I2 & I3 & I4 & I5 & I6 & I7 & I8). cbn in I1, I2, I3, I4, I5, I6, I7, I8, SN. subst st sel adr bsy ready file.
    pose proof (pa_low a pa A PA) as LA. pose proof (pa_good a pa A PA) as GA. pose proof (pc_low 4 p4 ltac:(apply byte_const; reflexivity) P4) as LC.
    pose proof (parity_good 4 p4 ltac:(apply byte_const; reflexivity) P4) as GC.
    destruct (low9 0 byte0) as (w0 & E0 & L0). destruct (low9 12 byte12) as (w12 & E12 & L12). destruct (low9 14 byte14) as (w14 & E14 & L14). destruct (low9 sense SN) as (ws & ES & LS).
    assert (OB : forall x, obey 4 x = Ok (set_end true (set_rdyd true (set_data (p_sense x) x)))) by reflexivity.
    destruct (sense =? 0) eqn:Q.
    - do 2 eexists. split.
      + unfold sense_all, start_io. cbn [app]. cycs ltac:(rewrite ?LA, ?Z.eqb_refl, ?GA, ?PA, ?LC, ?OB, ?GC, ?E0, ?ES, ?E12, ?Q) ltac:(rewrite ?L0, ?LS, ?L12).
      + unfold idle, line. cbn. repeat split; assumption.
    - do 2 eexists. split.
      + unfold sense_all, start_io. cbn [app]. cycs ltac:(rewrite ?LA, ?Z.eqb_refl, ?GA, ?PA, ?LC, ?OB, ?GC, ?E0, ?ES, ?E12, ?E14, ?Q) ltac:(rewrite ?L0, ?LS, ?L12).
      + unfold idle, line. cbn. repeat split; assumption.
  Qed.
End Ask.
