(** No access outside an array. *)
From Verif Require Import M2030.Model M2030.Spec M2030.Proofs M2030.Proofs2 M2030.Proofs3 M2030.Proofs4 M2030.Proofs5 M2030.Proofs6.

Definition okr {A} (P : A -> Prop) (x : res A) : Prop := match x with Ok a => P a | _ => False end.
Lemma okr_bind {A B} (P : A -> Prop) (Q : B -> Prop) x k : okr P x -> (forall a, P a -> okr Q (k a)) -> okr Q (bind x k).
Proof. destruct x; cbn; intros H K; [apply K, H|contradiction|contradiction]. Qed.
Lemma okr_weak {A} (P Q : A -> Prop) x : okr P x -> (forall a, P a -> Q a) -> okr Q x.
Proof. destruct x; cbn; auto. Qed.
Lemma okr_inv {A} (P : A -> Prop) x : okr P x -> exists a, x = Ok a /\ P a.
Proof. destruct x; cbn; intros H; [eauto|contradiction|contradiction]. Qed.
Lemma okr_wpar x : 0 <= x < 256 -> okr (fun _ => True) (wpar x).
Proof. intros H. destruct (wpar_ok x H) as (y & -> & _). exact I. Qed.
Lemma okr_tab t i : 0 <= i < Z.of_nat (length t) -> okr (fun _ => True) (tab t i).
Proof. intros H. rewrite tab_nth by exact H. exact I. Qed.

Definition L_rng := [Q_REG; XX_REG; SA_REG; MN_REG].
Lemma rng_fr L s s' : in_range s -> frame L s s' -> sm s s' -> existsb (fun r => existsb (reg_beq r) L) L_rng = false -> in_range s'.
Proof.
  intros ((A & B & C & D) & E & F & G & H) FR (M & N & O & P) X. cbn [existsb L_rng] in X.
  repeat (apply orb_false_elim in X as [? X]). unfold in_range, sizes. rewrite M, N, O, P, (FR Q_REG), (FR XX_REG), (FR SA_REG), (FR MN_REG) by assumption. repeat split; try assumption; lia.
Qed.
Lemma rng_set r v s : existsb (fun q => reg_beq q r) L_rng = false -> in_range s -> in_range (s <[r := v]>).
Proof.
  intros O ((A & B & C & D) & E & F & G & H). cbn [existsb L_rng] in O. repeat (apply orb_false_elim in O as [? O]).
  unfold in_range, sizes. cbn [mm ls mp mem_max set]. rewrite !get_set. known. repeat split; try assumption; lia.
Qed.
Lemma rng_Q v s : 0 <= v < 256 -> in_range s -> in_range (s <[Q_REG := v]>).
Proof. intros V (A & E & F & G & H). split; [exact A|]. rewrite !get_set. cbn [reg_beq]. repeat split; try assumption; lia. Qed.
Lemma rng_XX v s : 0 <= v < 256 -> in_range s -> in_range (s <[XX_REG := v]>).
Proof. intros V (A & E & F & G & H). split; [exact A|]. rewrite !get_set. cbn [reg_beq]. repeat split; try assumption; lia. Qed.
Lemma rng_SA v s : 0 <= v < 256 -> in_range s -> in_range (s <[SA_REG := v]>).
Proof. intros V (A & E & F & G & H). split; [exact A|]. rewrite !get_set. cbn [reg_beq]. repeat split; try assumption; lia. Qed.
Lemma rng_MN v s : 0 <= v < 65536 -> in_range s -> in_range (s <[MN_REG := v]>).
Proof. intros V (A & E & F & G & H). split; [exact A|]. rewrite !get_set. cbn [reg_beq]. repeat split; try assumption; lia. Qed.
Lemma rng_mm i v s : in_range s -> in_range (set_mm (upd (mm s) i v) s).
Proof. intros ((A & B & C & D) & E). split; [|exact E]. unfold sizes. cbn [mm ls mp mem_max set_mm]. rewrite upd_length. auto. Qed.
Lemma rng_ls i v s : in_range s -> in_range (set_ls (upd (ls s) i v) s).
Proof. intros ((A & B & C & D) & E). split; [|exact E]. unfold sizes. cbn [mm ls mp mem_max set_ls]. rewrite upd_length. auto. Qed.
Lemma rng_mp i v s : in_range s -> in_range (set_mp (upd (mp s) i v) s).
Proof. intros ((A & B & C & D) & E). split; [|exact E]. unfold sizes. cbn [mm ls mp mem_max set_mp]. rewrite upd_length. auto. Qed.
Lemma key_range a b : 0 <= Z.lor (Z.land a 240) (Z.land b 15) < 256.
Proof.
  change 256 with (2 ^ 8). apply lor_lt; [lia| |]; [pose proof (land_lt a 240 ltac:(lia))|pose proof (land_lt b 15 ltac:(lia))]; change (2 ^ 8) with 256; lia.
Qed.

Ltac rng_if := match goal with |- in_range (if ?b then _ else _) => destruct b | |- okr _ (if ?b then _ else _) => destruct b eqn:? end.
Ltac rngs := repeat first [ assumption | rng_if | apply rng_mm | apply rng_ls | apply rng_mp | apply rng_set; [reflexivity|] | apply rng_Q; [try apply key_range|] ].
Lemma rng_orr r m s : existsb (fun q => reg_beq q r) L_rng = false -> in_range s -> in_range (orr r m s).
Proof. apply rng_set. Qed.
(** 1039-1099. *)
Lemma mem_read_safe w s : safe s -> okr safe (mem_read w s).
Proof.
  intros [R B]. unfold mem_read. destruct (negb (on s read_call) || on s dead_cycle) eqn:E; [split; assumption|].
  apply orb_false_elim in E as [E _]. apply negb_false_iff, on1 in E. assert (B' : s!store <> MAIN -> s!MN_REG < 4096) by auto. clear B. cbv zeta.
  set (s1 := s <[protect_loc := 0]> <[mem_prot := 0]> <[stg_prot_req := 0]>).
  set (s2 := if bad s1!M_REG || bad s1!N_REG then _ else s1).
  set (s3 := if (s2!store =? MAIN) && _ then _ else s2).
  pose (P := fun t : cpu => in_range t /\ t!store = s!store /\ t!MN_REG = s!MN_REG /\ t!SA_REG = s!SA_REG).
  assert (P3 : P s3).
  { unfold P, s3, s2, s1. repeat step_if; (split; [rngs; try (apply rng_orr; [reflexivity|]); rngs|gs; auto]). }
  clearbody s3. clear s2 s1. apply (okr_bind P).
  { destruct P3 as (R3 & S3 & N3 & A3). destruct ((s3!store =? MAIN) && negb (on s3 mem_prot)); [|unfold P; cbn; auto].
    eapply okr_bind; [apply okr_tab; destruct R3 as ((? & ? & ? & ?) & ?); lia|]. intros k _. cbn [okr]. unfold P.
    repeat step_if; (split; [rngs|gs; auto]). }
  intros s4 P4. apply (okr_bind P).
  { destruct P4 as (R3 & S3 & N3 & A3). destruct (s4!store =? MPX); [|unfold P; cbn; auto].
    eapply okr_bind; [apply okr_tab; destruct R3 as ((? & ? & ? & ?) & ?); lia|]. intros k _. cbn [okr]. unfold P.
    repeat step_if; (split; [rngs|gs; auto]). }
  intros s5 P5. apply (okr_bind P).
  { destruct P5 as (R3 & S3 & N3 & A3). destruct (negb (CM w =? 2) && negb (on s5 mem_prot)); [|unfold P; cbn; auto].
    pose proof R3 as ((Z1 & Z2 & Z3 & Z4) & Q & X & A & M).
    destruct (Z.eqb_spec s5!store MAIN) as [SE|SE].
    - eapply okr_bind; [apply okr_tab; lia|]. intros v _. rewrite put_ok by lia. cbn [bind okr]. unfold P.
      split; [|cbn [set_mm rg get]; destruct (CU w =? 1); gs; auto].
      apply (rng_mm (Z.to_nat s5!MN_REG) 0 (s5 <[(if CU w =? 1 then GR (ch s5) else R_REG) := u16 v]>)). destruct (CU w =? 1); rngs.
    - assert (s5!MN_REG < 4096) by (rewrite N3; apply B'; congruence).
      destruct ((s5!store =? MPX) || (s5!store =? LOCAL)); [|unfold P; cbn; auto].
      eapply okr_bind; [apply okr_tab; lia|]. intros v _. rewrite put_ok by lia. cbn [bind okr]. unfold P.
      split; [|cbn [set_ls rg get]; destruct (CU w =? 1); gs; auto].
      apply (rng_ls (Z.to_nat s5!MN_REG) 0 (s5 <[(if CU w =? 1 then GR (ch s5) else R_REG) := v]>)). destruct (CU w =? 1); rngs. }
  intros s6 (R6 & S6 & N6 & A6). cbn [okr]. split; [rngs|]. gs. cbn [reg_beq]. rewrite S6, N6. auto.
Qed.
(** 1101-1137. *)
Lemma mem_write_safe w s : safe s -> okr safe (mem_write w s).
Proof.
  intros [R B]. unfold mem_write. destruct (_ && on s allow_write) eqn:E; [|split; assumption].
  apply andb_true_iff in E as [_ E]. apply on1 in E. cbv zeta. generalize (if CU w =? 1 then s!(GR (ch s)) else s!R_REG). intros v.
  pose proof R as ((Z1 & Z2 & Z3 & Z4) & Q & X & A & M). apply (okr_bind in_range).
  { pose proof (land_lt s!MN_REG 2047 ltac:(lia)). repeat step_if; rewrite ?put_ok by lia; cbn [bind]; rewrite ?put_ok by lia; cbn [bind okr]; rngs.
    - apply (rng_mp _ _ (set_mm (upd (mm s) (Z.to_nat s!MN_REG) v) s)). rngs.
    - apply (rng_ls _ _ (set_mp (upd (mp s) (Z.to_nat s!SA_REG) (Z.land s!Q_REG 15)) s)). rngs. }
  intros t T. cbn [okr]. split; [rngs|]. gs. cbn [reg_beq]. lia.
Qed.
(** 1138-1171. *)
Lemma safe_fr L s s' : safe s -> frame L s s' -> sm s s' -> existsb (fun r => existsb (reg_beq r) L) (L_rng ++ [store; read_call; allow_write]) = false -> safe s'.
Proof.
  intros [R B] FR M X. rewrite existsb_app in X. apply orb_false_elim in X as [X Y]. split; [eapply rng_fr; eassumption|].
  cbn [existsb L_rng] in X, Y. repeat (apply orb_false_elim in X as [? X]). repeat (apply orb_false_elim in Y as [? Y]).
  rewrite (FR store), (FR MN_REG), (FR read_call), (FR allow_write) by assumption. exact B.
Qed.
Lemma okr_fr (P : cpu -> Prop) L s x : (exists s', x = Ok s') -> fr L s x -> smr s x -> (forall s', frame L s s' -> sm s s' -> P s') -> okr P x.
Proof. intros [s' ->]. cbn. auto. Qed.
Lemma read_addr_safe w s : word_ok w -> safe s -> okr safe (read_addr w s).
Proof.
  intros W S. eapply okr_fr; [|apply read_addr_fr|apply read_addr_sm|intros s' F M; exact (safe_fr _ _ _ S F M eq_refl)].
  unfold read_addr. repeat match goal with |- exists _, (if ?b then _ else _) = _ => destruct b end; try (eexists; reflexivity).
  cbv zeta. set (n := if _ && _ then _ else _). assert (N : 0 <= n < 256).
  { assert (forall a b, 0 <= a < 256 -> 0 <= b < 256 -> 0 <= Z.lor a b < 256) as LL by (intros; apply (lor_lt 8); lia).
    assert (A1 : 0 <= Z.shiftr (Z.land (CN w) 128) 2 < 256). { rewrite Z.shiftr_div_pow2 by lia. pose proof (land_lt (CN w) 128 ltac:(lia)). change (2 ^ 2) with 4. Z.to_euclidean_division_equations. lia. }
    assert (A2 : 0 <= Z.shiftl (Z.land (CK w) 8) 1 < 256). { rewrite Z.shiftl_mul_pow2 by lia. pose proof (land_lt (CK w) 8 ltac:(lia)). change (2 ^ 1) with 2. lia. }
    pose proof (land_lt (CK w) 7 ltac:(lia)). unfold n. step_if; repeat apply LL; lia. }
  destruct (wpar_ok n N) as (y & -> & _). eexists. reflexivity.
Qed.
(** 1173-1231. *)
Lemma u8_range x : 0 <= u8 x < 256.
Proof. unfold u8. rewrite ?land_ones8. apply Z.mod_pos_bound. lia. Qed.
Lemma read_order_safe w s : safe s -> okr safe (read_order w s).
Proof.
  intros [R B]. unfold read_order. destruct (CM w <? 3); [split; assumption|]. cbv zeta.
  set (s1 := s <[store := MAIN]> <[mem_wrap_req := 0]>). assert (R1 : in_range s1) by (unfold s1; rngs). clearbody s1. clear B R s.
  apply (okr_bind in_range).
  { destruct (CU w =? 0); [cbn [okr]; rngs|]. destruct (CU w =? 1).
    { eapply okr_bind; [apply okr_wpar; lia|]. intros m _. cbn [okr]. rngs. }
    destruct (CU w =? 2).
    { eapply okr_bind; [apply okr_wpar; destruct R1 as (? & ? & ? & ?); lia|]. intros m _. cbn [okr]. apply rng_SA; [apply u8_range|]. rngs. }
    destruct (_ && _); [|exact R1]. eapply okr_bind; [apply okr_wpar; lia|]. intros m _. cbn [okr]. rngs. }
  intros s2 R2. cbn [okr]. set (s3 := if _ && _ then _ else s2). assert (R3 : in_range s3) by (unfold s3; rngs). clearbody s3. clear s2 R2 R1.
  set (s4 := if _ =? MAIN then _ else _). assert (S4 : safe s4).
  { unfold s4. destruct (Z.eqb_spec s3!store MAIN) as [E|E].
    - split; [|gs; cbn [reg_beq]; congruence]. apply rng_SA; [|apply rng_MN; [apply both_range|exact R3]].
      apply (lor_lt 8); [lia|lia|]. change (2 ^ 8) with 256.
      match goal with |- 0 <= Z.land ?a 31 < 256 => pose proof (land_lt a 31 ltac:(lia)); lia end.
    - assert (H : 0 <= Z.lor (Z.shiftl (Z.land s3!M_REG 224) 3) (Z.land s3!N_REG 255) < 4096).
      { apply (lor_lt 12); [lia| |]; change (2 ^ 12) with 4096; [rewrite Z.shiftl_mul_pow2 by lia; pose proof (land_lt s3!M_REG 224 ltac:(lia)); change (2 ^ 3) with 8; lia|].
        pose proof (land_lt s3!N_REG 255 ltac:(lia)). lia. }
      split; [apply rng_MN; [lia|exact R3]|]. intros _ _. rewrite get_set. cbn [reg_beq]. lia. }
  clearbody s4. destruct (_ || _); [|exact S4]. destruct S4 as [R4 B4]. split; [apply rng_set; [reflexivity|]; apply rng_orr; [reflexivity|exact R4]|].
  gs. cbn [reg_beq]. exact B4.
Qed.
Lemma mem_order_safe w s : word_ok w -> safe s -> okr safe (mem_order w s).
Proof.
  intros W S. unfold mem_order. destruct (on s dead_cycle); [exact S|]. eapply okr_bind; [apply mem_write_safe, S|]. intros a A.
  eapply okr_bind; [apply read_addr_safe; assumption|]. intros b B'. apply read_order_safe, B'.
Qed.
(** Busses and the adder. *)
Lemma sh4_range a b : 0 <= a < 16 -> 0 <= b < 16 -> 0 <= Z.lor (Z.shiftl a 4) b < 256.
Proof. intros A B. rewrite low_shift by (lia || (change (2 ^ 4) with 16; lia)). change (2 ^ 4) with 16. lia. Qed.
Lemma b_bus_ok sw w s : word_ok w -> switches_ok sw -> exists s', b_bus sw w s = Ok s'.
Proof.
  intros W S. unfold b_bus.
  assert (X : okr (fun _ => True) (if CK w =? 20 then wpar (Z.lor (Z.shiftl (H_SW sw) 4) (J_SW sw))
    else match CB w with 0 => Ok s!R_REG | 1 => Ok s!L_REG | 2 => Ok s!D_REG | 3 => wpar (Z.lor (Z.land (Z.shiftl (CK w) 4) 240) (Z.land (CK w) 15)) | _ => Ok s!Bbus end)).
  { destruct (CK w =? 20); [apply okr_wpar, sh4_range; unfold switches_ok in S; lia|]. cases; try exact I. apply okr_wpar. rewrite Z.lor_comm.
    pose proof (key_range (Z.shiftl (CK w) 4) (CK w)). rewrite Z.lor_comm. assumption. }
  apply okr_inv in X as (b & -> & _). cbn [bind]. eexists. reflexivity.
Qed.
Lemma lor8 a b : 0 <= a < 256 -> 0 <= b < 256 -> 0 <= Z.lor a b < 256. Proof. apply (lor_lt 8). lia. Qed.
Lemma f_range b m : 0 <= m < 256 -> 0 <= f b m < 256. Proof. unfold f. destruct b; lia. Qed.
Lemma gs_range s c : 0 <= gs_bits s c < 256. Proof. unfold gs_bits. repeat first [apply lor8|apply f_range; lia]. Qed.
Lemma gt_range s c : 0 <= gt_bits s c < 256. Proof. unfold gt_bits. repeat first [apply lor8|apply f_range; lia]. Qed.
Lemma gj6_range s c : 0 <= gj6_bits s c < 256. Proof. unfold gj6_bits. repeat first [apply lor8|apply f_range; lia]. Qed.
Lemma gj7_range s c : 0 <= gj7_bits s c < 256. Proof. unfold gj7_bits. repeat first [apply lor8|apply f_range; lia]. Qed.
Lemma wpar_bind x (k : Z -> cpu) : 0 <= x < 256 -> exists s', (let* a := wpar x in Ok (k a)) = Ok s'.
Proof. intros H. destruct (wpar_ok x H) as (y & -> & _). cbn [bind]. eexists. reflexivity. Qed.
Lemma a_bus_ok ti sw w s : switches_ok sw -> 0 <= s!Q_REG < 256 -> exists s', a_bus ti sw w s = Ok s'.
Proof.
  intros S Q. unfold a_bus. assert (X : exists s', a_gate ti sw w s = Ok s').
  { unfold a_gate. cbv zeta. unfold a_plain.
    destruct (CA w) as [|q|q]; [eexists; reflexivity| |eexists; reflexivity]. cases; try (eexists; reflexivity);
      apply wpar_bind; first [apply gs_range|apply gt_range|apply gj6_range|apply gj7_range|apply sh4_range; unfold switches_ok in S; lia|rewrite get_set; exact Q]. }
  destruct X as [s' ->]. cbn [bind]. eexists. reflexivity.
Qed.
Lemma alu_ok cv cc a b st even old : 0 <= cv < 3 -> 0 <= cc < 8 -> 0 <= a < 256 -> 0 <= b < 256 -> exists z, alu cv cc a b st even old = Ok z.
Proof.
  intros V C A B. unfold alu. replace (cv =? 3) with false by lia.
  assert (BI : 0 <= b_in cv st b < 256).
  { unfold b_in. replace (cv =? 3) with false by lia. destruct (is_tc cv st); [rewrite cpl by exact B; lia|exact B]. }
  assert (Z8 : 0 <= fst (alu_sum cc a (b_in cv st b) (c_in cc st) old) < 256).
  { unfold alu_sum. assert (X : cc = 0 \/ cc = 1 \/ cc = 2 \/ cc = 3 \/ cc = 4 \/ cc = 5 \/ cc = 6 \/ cc = 7) by lia.
    destruct X as [->|[->|[->|[->|[->|[->|[->| ->]]]]]]]; cbn [adds fst]; rewrite ?land_ones8; try (apply Z.mod_pos_bound; lia).
    - pose proof (land_lt a (b_in cv st b) ltac:(lia)). lia.
    - apply lor8; assumption.
    - assert (E : Z.lxor a (b_in cv st b) = Z.lxor a (b_in cv st b) mod 256).
      { rewrite <- land_ones8. rewrite <- (Z.mod_small a 256), <- (Z.mod_small (b_in cv st b) 256) by assumption. rewrite <- !land_ones8.
        apply Z.bits_inj'. intros n N. rewrite Z.land_spec, !Z.lxor_spec, !Z.land_spec.
        destruct (Z.testbit a n), (Z.testbit (b_in cv st b) n), (Z.testbit 255 n); reflexivity. }
      rewrite E. apply Z.mod_pos_bound. lia. }
  destruct (alu_sum cc a (b_in cv st b) (c_in cc st) old) as [z k]. cbn [fst] in Z8. destruct (par_out z Z8) as (p & -> & _). cbn [bind]. eexists. reflexivity.
Qed.
Lemma alu_step_ok sw w s : word_ok w -> CV w <> 3 -> exists s', alu_step sw w s = Ok s'.
Proof.
  intros W V. unfold alu_step. cbv zeta.
  match goal with |- context [alu ?cv ?cc ?a ?b ?st ?ev ?old] => destruct (alu_ok cv cc a b st ev old) as [[z k] E] end.
  - unfold word_ok in W. lia.
  - unfold word_ok in W. lia.
  - rewrite a_in_gate by (unfold word_ok in W; lia). apply gate_a_range.
  - rewrite b_mask_gate by (unfold word_ok in W; lia). apply gate_b_range.
  - rewrite E. cbn [bind]. eexists. reflexivity.
Qed.
Lemma safe_set r v s : existsb (fun q => reg_beq q r) (L_rng ++ [store; read_call; allow_write]) = false -> safe s -> safe (s <[r := v]>).
Proof.
  intros O [R B]. rewrite existsb_app in O. apply orb_false_elim in O as [O O']. split; [apply rng_set; assumption|].
  cbn [existsb L_rng] in O, O'. repeat (apply orb_false_elim in O as [? O]). repeat (apply orb_false_elim in O' as [? O']). rewrite !get_set. known. exact B.
Qed.
Lemma safe_Q v s : 0 <= v < 256 -> safe s -> safe (s <[Q_REG := v]>).
Proof. intros V [R B]. split; [apply rng_Q; assumption|]. rewrite !get_set. exact B. Qed.
Lemma safe_XX v s : 0 <= v < 256 -> safe s -> safe (s <[XX_REG := v]>).
Proof. intros V [R B]. split; [apply rng_XX; assumption|]. rewrite !get_set. exact B. Qed.
Lemma dest_safe w s : safe s -> safe (dest w s).
Proof.
  intros S. unfold dest. cbv zeta. destruct (CD w) as [|q|q]; [exact S| |exact S].
  cases; repeat (apply safe_set; [reflexivity|]); try exact S; try (apply safe_Q; [rewrite land_ones8; apply Z.mod_pos_bound; lia|exact S]).
Qed.
Lemma k_fb_XX w s : (k_fb w s)!XX_REG = s!XX_REG \/ (k_fb w s)!XX_REG = Z.land 224 (if bit (CK w) 2 && bit (CK w) 1 then s <[MASK := Z.land 225 s!R_REG]> else s)!S_REG.
Proof.
  unfold k_fb. cbv zeta. set (a := if bit (CK w) 2 && bit (CK w) 1 then _ else s). assert (A : a!XX_REG = s!XX_REG) by (unfold a; step_if; reflexivity). clearbody a.
  set (b := if _ && _ then a <[XX_REG := _]> else a). assert (B : b!XX_REG = a!XX_REG \/ b!XX_REG = Z.land 224 a!S_REG) by (unfold b; step_if; [right|left]; gs; reflexivity). clearbody b.
  match goal with |- ?x ! XX_REG = _ \/ _ => assert (E : x!XX_REG = b!XX_REG) end; [|rewrite E; destruct B as [B|B]; [left; congruence|right; exact B]].
  repeat step_if; gs; reflexivity.
Qed.
Lemma cs_XX w s : 0 <= s!XX_REG < 256 -> 0 <= (cs_order w s)!XX_REG < 256.
Proof.
  intros H. destruct (Z.eq_dec (CS w) 14) as [E|E].
  - unfold cs_order. rewrite E. destruct (k_fb_XX w s) as [K|K]; rewrite K; [exact H|]. rewrite Z.land_comm.
    match goal with |- 0 <= Z.land ?a 224 < 256 => pose proof (land_lt a 224 ltac:(lia)); lia end.
  - assert (F : (cs_order w s)!XX_REG = s!XX_REG); [|rewrite F; exact H].
    unfold cs_order, k_fa, k_gh, k_gb, k_ga, ros_done. cbv zeta. destruct (CS w) as [|q|q]; [reflexivity| |reflexivity]. revert E. cases; intros E; gs; cbn [reg_beq]; congruence.
Qed.
Lemma cs_safe w s : safe s -> safe (cs_order w s).
Proof.
  intros S. pose proof (cs_frame w s) as F. destruct (cs_sm w s) as (M & L & P & X). destruct S as [((Z1 & Z2 & Z3 & Z4) & Q & XX & A & N) B].
  split; [split|].
  - unfold sizes. rewrite M, L, P, X. auto.
  - rewrite (F Q_REG eq_refl), (F SA_REG eq_refl), (F MN_REG eq_refl). repeat split; try lia; apply cs_XX; lia.
  - rewrite (F store eq_refl), (F read_call eq_refl), (F allow_write eq_refl), (F MN_REG eq_refl). exact B.
Qed.
Lemma micro_safe ti sw w s : word_ok w -> switches_ok sw -> CV w <> 3 -> safe s -> okr safe (micro ti sw w s).
Proof.
  intros W SW V S. unfold micro. eapply okr_bind; [apply mem_read_safe, S|]. intros a A. eapply okr_bind; [apply mem_order_safe; assumption|]. intros b B. cbv zeta.
  assert (B' : safe (b <[end_of_e_cycle := b2z (CL w =? 15)]>)) by (apply safe_set; [reflexivity|exact B]).
  generalize (next_wx w b). intros n. revert B'. generalize (b <[end_of_e_cycle := b2z (CL w =? 15)]>). clear - W SW V. intros b B. destruct (on b dead_cycle).
  { cbn [okr]. exact (safe_fr _ _ _ B (dead_frame b n) (dead_sm b n) eq_refl). }
  pose proof (safe_fr _ _ _ B (go_frame b n) (go_sm b n) eq_refl) as G. pose proof (safe_fr _ _ _ G (ck_frame w _) (ck_sm w _) eq_refl) as C.
  revert C. generalize (ck_order w (go b n)). clear - W SW V. intros c C.
  apply (okr_bind safe).
  { eapply okr_fr; [apply b_bus_ok; assumption|apply b_bus_fr|apply b_bus_sm|]. intros s' F M. exact (safe_fr _ _ _ C F M eq_refl). }
  intros d D. apply (okr_bind safe).
  { eapply okr_fr; [apply a_bus_ok; [exact SW|destruct D as [(_ & Q & _) _]; exact Q]|apply a_bus_fr|apply a_bus_sm|]. intros s' F M. exact (safe_fr _ _ _ D F M eq_refl). }
  intros e E. apply (okr_bind safe).
  { eapply okr_fr; [apply alu_step_ok; assumption|apply alu_step_fr|apply alu_step_sm|]. intros s' F M. exact (safe_fr _ _ _ E F M eq_refl). }
  intros g G. cbn [okr]. apply (dest_safe w) in G. pose proof (safe_fr _ _ _ G (checks_frame sw w _) (checks_sm sw w _) eq_refl) as H.
  apply (cs_safe w) in H. exact (safe_fr _ _ _ H (stops_frame sw w _) (stops_sm sw w _) eq_refl).
Qed.
Lemma micros_safe ws : Forall (fun e => let '(_, sw, w) := e in word_ok w /\ switches_ok sw /\ CV w <> 3) ws -> forall s, safe s -> okr safe (micros ws s).
Proof.
  induction 1 as [|((ti, sw), w) ws (A & B & C) _ IH]; intros s S; cbn [micros]; [exact S|]. eapply okr_bind; [apply micro_safe; assumption|]. exact IH.
Qed.

(** The machine without channels: traps, the fetch of the word, the microinstruction. *)
Lemma trap_bus s : 0 <= (trap s)!priority_bus <= 128.
Proof. unfold trap. cbv zeta. repeat step_if; gs; cbn [reg_beq]; lia. Qed.
Lemma dead_rom s n : rom_regs s -> 0 <= s!priority_bus <= 128 -> rom_regs (dead s n).
Proof.
  intros (A & B & C & D & E) P.
  assert (N : 0 <= Z.land n 3 < 4) by (pose proof (land_lt n 3 ltac:(lia)); lia).
  assert (O : in_rom (Z.lor s!priority_bus 3)) by (apply rom_lor; unfold in_rom; lia).
  assert (P' : in_rom s!priority_bus) by (unfold in_rom; lia).
  unfold dead, rom_regs, in_rom in *. cbv zeta. repeat step_if; gs; cbn [reg_beq]; lia.
Qed.
Lemma running_fr L s s' : running s -> frame L s s' -> sm s s' ->
  existsb (fun r => existsb (reg_beq r) L) (L_rng ++ [store; read_call; allow_write] ++ [WX; GWX; FWX; SEL_X6X7; MPX_X6X7; sel_share_req; dead_cycle]) = false -> running s'.
Proof.
  intros (S & (R1 & R2 & R3 & R4 & R5) & H & D) F M O. rewrite app_assoc, existsb_app in O. apply orb_false_elim in O as [O O'].
  cbn [existsb] in O'. repeat (apply orb_false_elim in O' as [? O']).
  split; [eapply safe_fr; eassumption|]. unfold rom_regs. rewrite (F WX), (F GWX), (F FWX), (F SEL_X6X7), (F MPX_X6X7), (F sel_share_req), (F dead_cycle) by assumption.
  repeat (split; [first [assumption|exact (conj R1 (conj R2 (conj R3 (conj R4 R5))))]|]). exact D.
Qed.
Lemma cycle_running ti sw rom s : rom_ok rom -> switches_ok sw -> running s -> okr running (cycle ti sw rom s).
Proof.
  intros [RL RW] SW R. unfold cycle. pose proof (running_fr _ _ _ R (trap_frame s) (trap_sm s) eq_refl) as T. pose proof (trap_bus s) as PB.
  revert T PB. generalize (trap s). clear R s. intros s R PB. cbv zeta.
  assert (ST : sel_turn s = false). { destruct R as (_ & _ & H & _). unfold sel_turn. rewrite (proj2 (on0 s _) H). reflexivity. }
  rewrite ST. unfold enter. set (b := on s any_priority_pulse && _ && _).
  assert (FE : forall t, rom_regs t -> exists w, fetch rom t = Ok w /\ word_ok w /\ CV w <> 3 /\ CK w <> 17).
  { intros t (W & _). unfold in_rom in W. unfold fetch. replace (t!WX <? 0) with false by lia.
    assert (LT : (Z.to_nat t!WX < length rom)%nat) by (rewrite RL; apply Z2Nat.inj_lt; lia).
    destruct (nth_error rom (Z.to_nat t!WX)) as [w|] eqn:E; [|apply nth_error_None in E; lia].
    exists w. split; [reflexivity|]. rewrite Forall_forall in RW. apply RW. eapply nth_error_In, E. }
  destruct b.
  - set (t := s <[priority_lch := 1]> <[clock_start_lch := 1]> <[dead_cycle := 1]>).
    assert (TS : safe t /\ rom_regs t /\ t!sel_share_req = 0). { destruct R as (A & B & C & D). repeat split; unfold t; try (repeat (apply safe_set; [reflexivity|]); assumption); gs; cbn [reg_beq]; apply B || exact C. }
    destruct TS as (TS & TR & TQ). rewrite (proj2 (on1 t clock_start_lch)) by (unfold t; gs; cbn; lia).
    destruct (FE t TR) as (w & -> & WO & _). cbn [bind]. rewrite micro_dead by (unfold t; gs; cbn; lia). cbn [okr].
    set (u := t <[end_of_e_cycle := _]>).
    assert (U : safe u) by (apply safe_set; [reflexivity|exact TS]).
    split; [exact (safe_fr _ _ _ U (dead_frame u _) (dead_sm u _) eq_refl)|]. split; [apply dead_rom; [exact TR|exact PB]|].
    split; [rewrite (dead_frame u _ sel_share_req eq_refl); exact TQ|]. unfold dead. cbv zeta. gs. reflexivity.
  - destruct (on s clock_start_lch); [|exact R]. destruct R as (S & RR & Q & D). destruct (FE s RR) as (w & -> & WO & V & K). cbn [bind].
    pose proof (micro_safe ti sw w s WO SW V S) as M. destruct (okr_inv _ _ M) as (s' & E & S'). rewrite E. cbn [okr].
    destruct RR as (R1 & R2 & R3 & R4 & R5). destruct (micro_rom ti sw w s s' E D WO (or_introl K) R2 R3 R4 R5) as (A1 & A2 & A3 & A4 & A5 & A6).
    split; [exact S'|]. split; [unfold rom_regs; rewrite A2, A3, A4, A5; auto|]. split; [|exact A6].
    pose proof (micro_parts _ _ _ _ _ E D) as p. rewrite (rest_fr _ _ _ _ _ p sel_share_req eq_refl).
    rewrite (mem_fr _ _ _ _ (pe_read p) (pe_mem p) sel_share_req eq_refl). exact Q.
Qed.
Lemma cycles_running rom io : rom_ok rom -> Forall (fun e => switches_ok (snd e)) io -> forall s, running s -> okr running (cycles io rom s).
Proof.
  intros RO. induction 1 as [|(ti, sw) io A _ IH]; intros s R; cbn [cycles]; [exact R|]. eapply okr_bind; [apply cycle_running; assumption|]. exact IH.
Qed.
