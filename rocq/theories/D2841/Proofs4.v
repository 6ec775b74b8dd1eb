From Verif Require Export D2841.Proofs3.
Open Scope Z_scope.

(** *** One microinstruction *)
Record micro_facts (s s' : ctx) (m : mi) : Prop := {
  mf_alu : exists o, (o, c_carry s') = compute (CC m) (CV m) (c_a s') (operand s m) (bit_of (c_r s ST) 3) /\ c_nz s' = negb (o =? 0) /\ c_alu s' = (if BP m =? 0 then o else c_a s');
  mf_a : forall r, source (CA m) = Some r -> c_a s' = c_r s r;
  mf_bo : CA m = 15 -> c_a s' = c_bo s;
  mf_zero : CA m = 0 \/ 18 <= CA m <= 27 -> c_a s' = 0;
  mf_other : forall r, r <> ST -> target (CD m) <> Some r -> c_r s' r = c_r s r;
  mf_target : forall r, target (CD m) = Some r -> r <> FT -> r <> FC -> c_r s' r = c_alu s';
  mf_tags : forall r, target (CD m) = Some r -> r = FT \/ r = FC -> tag_spec m (c_r s r) (c_alu s') (c_r s' r);
  mf_st : st_new m (c_r s ST) (c_r s' ST) (c_carry s') (c_nz s');
  mf_wx : c_wx s' = let p := 256 * (if CH m =? 8 then CK m mod 16 else c_wx s / 256) in
                    if CL m =? 6 then p + c_a s' else p + CN m + 2 * num (high_condition s (selected s) (CH m)) + num (low_condition s (selected s) (CL m));
  mf_moves : exists L, disks_move (c_disk s) (c_disk s') L /\ (forall i, c_cur s <> Some i -> L i = []) /\ (forall i, Forall is_tag (L i));
  mf_cur : CD m <> 10 -> c_cur s' = c_cur s;
  mf_lines : c_addr s' = c_addr s /\ c_bo s' = c_bo s /\ c_tags s' = c_tags s /\ c_sel s' = c_sel s /\ c_req s' = c_req s /\ c_opri s' = c_opri s /\ c_addrd s' = c_addrd s /\ c_tr2 s' = c_tr2 s /\ c_stai s' = c_stai s;
  mf_tr1 : c_tr1 s' = true -> c_tr1 s = true \/ CA m = 15 \/ (CA m = 12 /\ bit_of (c_r s IG) 2 = true);
  mf_tr1' : c_tr1 s = true -> c_tr1 s' = true;
  mf_srvi : c_srvi s' = (if CA m =? 13 then false else c_srvi s);
  mf_svc : c_svc s' = c_svc s || ((CD m =? 15) && bit_of (c_alu s') 0 && negb (c_srvi s'));
  mf_index : c_index s' = (if CS m =? 3 then false else c_index s);
  mf_ok : ctx_ok s' }.

Lemma cur_selected s : cur_ok s -> cur s = Ok (selected s).
Proof. unfold cur_ok, cur, selected. destruct (c_cur s) as [i|]; [|reflexivity]. intros [d ->]. reflexivity. Qed.
Lemma alu_target cd : target cd <> Some ST.
Proof. unfold target. intros X. repeat match type of X with context [?x =? ?y] => destruct (Z.eqb_spec x y); [discriminate|] end. discriminate. Qed.
Lemma page_of p n : 0 <= n < 256 -> 0 <= p < 16 -> Z.land (256 * p + n) 3840 = 256 * p.
Proof.
  intros N P. pose proof (sweep2 16 256 (fun p n => Z.land (256 * p + n) 3840 =? 256 * p) ltac:(vm_compute; reflexivity) p n P N) as S. apply Z.eqb_eq in S. exact S.
Qed.
Lemma or_page p n : 0 <= n < 256 -> 0 <= p < 16 -> Z.lor (256 * p) n = 256 * p + n.
Proof.
  intros N P. pose proof (sweep2 16 256 (fun p n => Z.lor (256 * p) n =? 256 * p + n) ltac:(vm_compute; reflexivity) p n P N) as S. apply Z.eqb_eq in S. exact S.
Qed.

Lemma pw s m : 0 <= c_wx s < 4096 -> 0 <= (if CH m =? 8 then CK m mod 16 else c_wx s / 256) < 16.
Proof. intros W. destruct (CH m =? 8); [apply Z.mod_pos_bound; lia|split; [apply Z.div_pos; lia|apply Z.div_lt_upper_bound; lia]]. Qed.
Lemma low_of n h l : is_byte n -> n mod 4 = 0 -> 0 <= n + 2 * num h + num l < 256.
Proof. unfold is_byte. intros N M. assert (n / 4 < 64) by (apply Z.div_lt_upper_bound; lia). pose proof (Z_div_mod_eq_full n 4). destruct h, l; cbn [num]; lia. Qed.
Lemma micro_ok s m s' : ctx_ok s -> good_mi m -> micro s m = Ok s' -> micro_facts s s' m.
Proof.
  intros OK G H. unfold micro in H. pose proof OK as (R & OA & OB & OL & OBO & OW & LEN & CU). rewrite (cur_selected s CU) in H. cbn [bind] in H.
  set (d := selected s) in *. set (s1 := set_b (bbus s m) s) in *.
  pose proof (next_ok s d m OW G) as NX. set (n0 := next s d m) in *. clearbody n0.
  assert (OK1 : ctx_ok s1).
  { destruct (alu_ok s m 0 OK G ltac:(apply byte_c; reflexivity)) as (_ & _ & FB). unfold final_b in FB. repeat split; try apply R; try apply OA; try apply OL; try apply OBO; try apply OW; try apply LEN; try apply CU; unfold s1; cbn [c_b set_b]; revert FB; unfold is_byte; destruct (CV m =? 0); lia. }
  destruct (abus_form s1 d m OK1 G) as (a & t & v & EA & AB & A1 & A2 & A3 & T1 & T2 & V). rewrite EA in H. clear EA.
  destruct (alu_ok s m a OK G AB) as (AL & OB2 & FB). unfold final_b in *.
  set (s2 := set_a a (set_tr1 t (set_srvi v s1))) in *. cbv zeta in H.
  change (c_a s2) with a in H. change (c_b s2) with (bbus s m) in H. set (b := if CV m =? 0 then bbus s m else 255 - bbus s m) in *.
  assert (E3 : (if CV m =? 0 then s2 else set_b (255 - bbus s m) s2) = set_b b s2) by (unfold b; destruct (CV m =? 0); [unfold s2, s1; destruct s; reflexivity|reflexivity]).
  rewrite E3 in H. change (c_a (set_b b s2)) with a in H. change (c_b (set_b b s2)) with b in H.
  change (carry_in (set_b b s2) (CC m)) with (carry_in s (CC m)) in H. set (o := alu a b (carry_in s (CC m)) (CC m)) in *.
  set (cy := negb (Z.land (carries a b o (CC m)) 128 =? 0)) in *. set (s3 := set_carry cy (set_nz (negb (o =? 0)) (set_b b s2))) in *.
  change (c_a s3) with a in H. set (x := if BP m =? 0 then o else a) in *. set (s4 := set_alu x s3) in *.
  assert (XB : is_byte x) by (unfold x; destruct (BP m =? 0); assumption).
  assert (R4 : regs_ok s4) by exact R.
  destruct (dest s4 m) as [s5| |] eqn:E5; try discriminate. cbn [bind] in H.
  destruct (dest_ok s4 m s5 R4 XB CU G E5) as [F DO DT DG DB DM DC DS DV]. 
  destruct (st_carry_ok s5 m DB) as ((Q1 & Q2) & Q3 & Q4 & Q5). set (s6 := st_carry s5 m) in *.
  destruct (status_ok s6 m Q3 G) as ((P1 & P2) & P3 & P4 & P5). set (s7 := status s6 m) in *.
  apply (f_equal (fun x => match x with Ok y => y | _ => s end)) in H. cbv beta iota in H. subst s'.
  destruct F as (f & u & cu & dk & sv & F). destruct Q1 as [g Q1]. destruct P1 as [h P1].
  clearbody s6 s7. 
  assert (K6 : c_carry s6 = cy /\ c_nz s6 = negb (o =? 0)) by (rewrite Q1, F; split; reflexivity). destruct K6 as [K6 K6'].
  assert (K5 : c_carry s5 = cy) by (rewrite F; reflexivity).
  pose proof (pw s m OW) as PW.
  pose proof G as (_ & _ & _ & _ & _ & HCN & HCN4 & _).
  set (pg := if CH m =? 8 then CK m mod 16 else c_wx s / 256) in *.
  set (hc := high_condition s d (CH m)) in *. set (lc := low_condition s d (CL m)) in *.
  pose proof (low_of (CN m) hc lc HCN HCN4) as LO.
  assert (WX : (if CL m =? 6 then Z.lor (Z.land n0 3840) a else n0) = if CL m =? 6 then 256 * pg + a else 256 * pg + CN m + 2 * num hc + num lc).
  { destruct (CL m =? 6); [|exact NX]. rewrite NX. replace (256 * pg + CN m + 2 * num hc + num lc) with (256 * pg + (CN m + 2 * num hc + num lc)) by (clear; ring). rewrite page_of, or_page by assumption. reflexivity. }
  assert (C7 : c_cur s7 = c_cur s5) by (rewrite P1, Q1; reflexivity).
  assert (D7 : c_disk s7 = c_disk s5) by (rewrite P1, Q1; reflexivity).
  assert (R7 : forall r, r <> ST -> c_r s7 r = c_r s5 r) by (intros r N; rewrite P2, Q2 by exact N; reflexivity).
  assert (AA : c_a s7 = a /\ c_alu s7 = x /\ c_carry s7 = cy /\ c_nz s7 = negb (o =? 0)) by (rewrite P1, Q1, F; repeat split; reflexivity). destruct AA as (AA & AX & AC & AN).
  assert (LI : c_addr s7 = c_addr s /\ c_bo s7 = c_bo s /\ c_tags s7 = c_tags s /\ c_sel s7 = c_sel s /\ c_req s7 = c_req s /\ c_opri s7 = c_opri s /\ c_addrd s7 = c_addrd s /\ c_tr2 s7 = c_tr2 s /\ c_stai s7 = c_stai s /\ c_tr1 s7 = t /\ c_srvi s7 = v /\ c_svc s7 = c_svc s5 /\ c_b s7 = b) by (rewrite P1, Q1, F; repeat split; reflexivity).
  destruct LI as (I1 & I2 & I3 & I4 & I5 & I6 & I7 & I8 & I9 & I10 & I11 & I12 & I13).
  assert (WXB : 0 <= (if CL m =? 6 then Z.lor (Z.land n0 3840) a else n0) < 4096).
  { rewrite WX. unfold is_byte in AB. clear - AB LO PW. destruct (CL m =? 6); lia. }
  split; cbn [c_carry c_a c_nz c_alu c_r c_wx c_disk c_cur c_addr c_bo c_tags c_sel c_req c_opri c_addrd c_tr1 c_tr2 c_srvi c_svc c_stai c_index set_wx].
  - exists o. rewrite AA, AC, AN, AX. split; [exact AL|]. split; reflexivity.
  - rewrite AA. exact A1.
  - rewrite AA. exact A2.
  - rewrite AA. exact A3.
  - intros r N T. rewrite R7 by exact N. exact (DO r T).
  - intros r T N1 N2. rewrite R7 by (intros ->; exact (alu_target _ T)). rewrite AX. exact (DT r T N1 N2).
  - intros r T N. rewrite R7 by (intros ->; exact (alu_target _ T)). rewrite AX. exact (DG r T N).
  - intros k K. rewrite (P5 k K), (Q5 k K), K6', K5, AC, AN. rewrite (DO ST) by apply alu_target. reflexivity.
  - rewrite AA. cbv zeta. exact WX.
  - rewrite D7. exact DM.
  - intros N. rewrite C7. exact (DS N).
  - repeat split; assumption.
  - rewrite I10. exact T1.
  - rewrite I10. exact T2.
  - rewrite I11. exact V.
  - rewrite I12, DV, AX. rewrite I11. reflexivity.
  - rewrite P4, Q4. rewrite F. reflexivity.
  - unfold ctx_ok. cbn [c_r c_a c_b c_alu c_bo c_wx c_disk set_wx]. split; [exact P3|]. rewrite AA, I13, AX, I2, D7. split; [exact AB|]. split; [exact FB|]. split; [exact XB|]. split; [exact OBO|]. split; [exact WXB|].
    destruct DM as (L & [ML _] & _). split; [rewrite ML; exact LEN|]. unfold cur_ok. cbn [c_cur set_wx c_disk]. rewrite C7, D7. exact DC.
Qed.

(** The only thing that can go wrong is an operation of the selected drive. *)
Lemma to_drive_ub s b : regs_ok s -> cur_ok s -> (exists s2, to_drive s b = Ok s2) \/ exists i d l, c_cur s = Some i /\ nth_error (c_disk s) i = Some (Some d) /\ Forall is_tag l /\ forall y, do_ops d l <> Ok y.
Proof.
  intros R C. unfold to_drive. destruct (c_cur s) as [i|] eqn:E; [|left; eauto]. rewrite (cur_selected s C). unfold selected. rewrite E. unfold cur_ok in C. rewrite E in C. destruct C as [d C]. rewrite C. cbn [bind].
  destruct (dasd_settags d (c_r s FT) (c_r s FC)) as [x| |] eqn:T; cbn [bind].
  - destruct (b && (c_r s FT =? 129) && on s FC 192); [|left; eauto]. destruct (dasd_update (fst x)) as [y| |] eqn:U; cbn [bind]; [left; eauto| |].
    + right. exists i, d, [OTags (c_r s FT) (c_r s FC); OUpdate]. repeat split; [exact C|repeat constructor; apply R|]. intros y. cbn. rewrite T. cbn. rewrite U. discriminate.
    + right. exists i, d, [OTags (c_r s FT) (c_r s FC); OUpdate]. repeat split; [exact C|repeat constructor; apply R|]. intros y. cbn. rewrite T. cbn. rewrite U. discriminate.
  - right. exists i, d, [OTags (c_r s FT) (c_r s FC)]. repeat split; [exact C|repeat constructor; apply R|]. intros y. cbn. rewrite T. discriminate.
  - right. exists i, d, [OTags (c_r s FT) (c_r s FC)]. repeat split; [exact C|repeat constructor; apply R|]. intros y. cbn. rewrite T. discriminate.
Qed.
