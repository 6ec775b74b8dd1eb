(** The 2030: the arithmetic unit. *)
From Verif Require Import M2030.Model M2030.Spec M2030.Proofs.

Lemma land_ones8 x : Z.land x 255 = x mod 256. Proof. exact (Z.land_ones x 8 ltac:(lia)). Qed.
Lemma land_ones4 x : Z.land x 15 = x mod 16. Proof. exact (Z.land_ones x 4 ltac:(lia)). Qed.
Lemma shr4 x : Z.shiftr x 4 = x / 16. Proof. exact (Z.shiftr_div_pow2 x 4 ltac:(lia)). Qed.
Lemma land240 x : Z.land x 240 = 16 * hi x.
Proof.
  unfold hi. change 240 with (Z.shiftl 15 4). rewrite Z.mul_comm. change 16 with (2 ^ 4). rewrite <- Z.shiftl_mul_pow2, <- Z.shiftr_div_pow2, <- Z.land_ones by lia.
  apply Z.bits_inj'. intros n Hn. rewrite Z.land_spec. rewrite !Z.shiftl_spec by lia. rewrite Z.land_spec.
  destruct (n <? 4) eqn:E.
  - rewrite !(Z.testbit_neg_r _ (n - 4)) by lia. rewrite andb_false_r. reflexivity.
  - rewrite Z.shiftr_spec by lia. replace (n - 4 + 4) with n by lia. reflexivity.
Qed.
Lemma byte_split x : x mod 256 = 16 * hi x + lo x.
Proof.
  unfold hi, lo. change 256 with (16 * 16). rewrite Z.rem_mul_r by lia. lia.
Qed.
Lemma hi_range x : 0 <= hi x < 16. Proof. apply Z.mod_pos_bound. lia. Qed.
Lemma lo_range x : 0 <= lo x < 16. Proof. apply Z.mod_pos_bound. lia. Qed.
Lemma shl4 x : Z.land (Z.shiftl x 4) 240 = 16 * lo x.
Proof.
  rewrite land240, Z.shiftl_mul_pow2 by lia. change (2 ^ 4) with 16. unfold hi, lo. rewrite Z.div_mul by lia. reflexivity.
Qed.
Lemma lor_split a b : 0 <= a < 16 -> 0 <= b < 16 -> Z.lor a (16 * b) = 16 * b + a.
Proof.
  intros A B. pose proof (sweep2 16 16 (fun a b => Z.lor a (16 * b) =? 16 * b + a) ltac:(vm_compute; reflexivity) a b A B) as S.
  apply Z.eqb_eq, S.
Qed.
Lemma a_in_gate cf x : 0 <= cf < 8 -> a_in cf x = gate_a cf x.
Proof.
  intros H. assert (C : cf = 0 \/ cf = 1 \/ cf = 2 \/ cf = 3 \/ cf = 4 \/ cf = 5 \/ cf = 6 \/ cf = 7) by lia.
  destruct C as [->|[->|[->|[->|[->|[->|[->| ->]]]]]]]; cbn [a_in gate_a]; try reflexivity.
  - apply land_ones4. - apply land240. - rewrite land_ones8. apply byte_split. - rewrite land_ones4, shr4. reflexivity. - apply shl4.
  - rewrite land_ones4, shr4, shl4. apply lor_split; apply Z.mod_pos_bound; lia.
Qed.
Lemma b_mask_gate cg x : 0 <= cg < 4 -> b_mask cg x = gate_b cg x.
Proof.
  intros H. assert (C : cg = 0 \/ cg = 1 \/ cg = 2 \/ cg = 3) by lia.
  destruct C as [->|[->|[->| ->]]]; cbn [b_mask gate_b]; try reflexivity.
  - apply land_ones4. - apply land240. - rewrite land_ones8. apply byte_split.
Qed.
Lemma gate_a_range cf x : 0 <= gate_a cf x < 256.
Proof. pose proof (hi_range x). pose proof (lo_range x). unfold gate_a. repeat match goal with |- context [match ?x with _ => _ end] => destruct x end; lia. Qed.
Lemma gate_b_range cf x : 0 <= gate_b cf x < 256.
Proof. pose proof (hi_range x). pose proof (lo_range x). unfold gate_b. repeat match goal with |- context [match ?x with _ => _ end] => destruct x end; lia. Qed.

Lemma bit_test x k : 0 <= k -> bit x (2 ^ k) = Z.testbit x k.
Proof.
  intros H. unfold bit. destruct (Z.testbit x k) eqn:E.
  - replace (Z.land x (2 ^ k) =? 0) with false; [reflexivity|]. symmetry. apply Z.eqb_neq. intros C.
    assert (D : Z.testbit (Z.land x (2 ^ k)) k = true) by (rewrite Z.land_spec, E, Z.pow2_bits_true by lia; reflexivity).
    rewrite C, Z.bits_0 in D. discriminate.
  - replace (Z.land x (2 ^ k)) with 0; [reflexivity|]. symmetry. apply Z.bits_inj'. intros n Hn.
    rewrite Z.land_spec, Z.bits_0, Z.pow2_bits_eqb by lia. destruct (Z.eqb_spec k n) as [->|N]; [rewrite E; reflexivity|apply andb_false_r].
Qed.
Lemma bit128 x : bit x 128 = Z.testbit x 7. Proof. exact (bit_test x 7 ltac:(lia)). Qed.
Lemma bit64 x : bit x 64 = Z.testbit x 6. Proof. exact (bit_test x 6 ltac:(lia)). Qed.
Lemma bit16 x : bit x 16 = Z.testbit x 4. Proof. exact (bit_test x 4 ltac:(lia)). Qed.
Lemma is_tc_spec cv st : 0 <= cv < 4 -> is_tc cv st = complement cv st.
Proof.
  intros H. unfold is_tc, complement, ibit. rewrite bit128. change (7 - 0) with 7.
  assert (C : cv = 0 \/ cv = 1 \/ cv = 2 \/ cv = 3) by lia. destruct C as [->|[->|[->| ->]]]; reflexivity.
Qed.
Lemma c_in_spec cc st : is_sum cc -> c_in cc st = carry_into cc st.
Proof.
  unfold carry_into, ibit, is_sum. intros [->|[->|[->|[->| ->]]]]; cbn [c_in Z.eqb Pos.eqb orb]; try reflexivity. rewrite bit16. reflexivity.
Qed.
Lemma carry_range cc st : 0 <= carry_into cc st <= 1.
Proof. unfold carry_into. repeat step_if; lia. Qed.
Lemma cpl x : 0 <= x < 256 -> Z.lxor x 255 = 255 - x.
Proof. intros H. pose proof (sweep 256 (fun x => Z.lxor x 255 =? 255 - x) ltac:(vm_compute; reflexivity) x H) as S. apply Z.eqb_eq, S. Qed.

(** The carries are carries. *)
Definition car (a b c : Z) : Z := Z.lor (Z.land a b) (Z.land (Z.lxor a b) (Z.lnot (a + b + c))).
Lemma car_spec a b c : 0 <= a < 256 -> 0 <= b < 256 -> 0 <= c <= 1 ->
  bit (car a b c) 128 = (256 <=? a + b + c) /\ bit (car a b c) 64 = (128 <=? a mod 128 + b mod 128 + c).
Proof.
  intros A B C.
  pose proof (sweep2 256 256 (fun a b => forallb (fun c => Bool.eqb (bit (car a b c) 128) (256 <=? a + b + c) &&
     Bool.eqb (bit (car a b c) 64) (128 <=? a mod 128 + b mod 128 + c)) [0; 1]) ltac:(vm_compute; reflexivity) a b A B) as S.
  cbn [forallb] in S. repeat (apply andb_prop in S as [S ?]). repeat match goal with H : (_ && _)%bool = true |- _ => apply andb_prop in H as [? ?] end.
  repeat match goal with H : Bool.eqb _ _ = true |- _ => apply Bool.eqb_prop in H end.
  assert (D : c = 0 \/ c = 1) by lia. destruct D as [-> | ->]; auto.
Qed.
Lemma par_out z : 0 <= z < 256 -> exists p, tab odd_parity z = Ok p /\ odd9 (Z.lor z p) /\ (Z.lor z p) mod 256 = z /\ odd_bits 9 (Z.lor z (Z.lxor p 256)) = false
  /\ (Z.lor z (Z.lxor p 256)) mod 256 = z.
Proof.
  intros H. pose proof (sweep 256 (fun z => match tab odd_parity z with Ok p => (0 <=? Z.lor z p) && (Z.lor z p <? 512) && odd_bits 9 (Z.lor z p) &&
    (Z.lor z p mod 256 =? z) && negb (odd_bits 9 (Z.lor z (Z.lxor p 256))) && (Z.lor z (Z.lxor p 256) mod 256 =? z) | _ => false end) ltac:(vm_compute; reflexivity) z H) as S. cbn beta in S.
  destruct (tab odd_parity z) as [p| |]; try discriminate. exists p. repeat (apply andb_prop in S as [S ?]). unfold odd9.
  repeat split; try lia; try assumption; apply negb_true_iff; assumption.
Qed.

(** Binary sums. *)
Lemma alu_bin cv cc a b st old : 0 <= cv < 3 -> is_sum cc -> 0 <= a < 256 -> 0 <= b < 256 ->
  let b' := if complement cv st then 255 - b else b in
  let t := a + b' + carry_into cc st in
  exists z k, alu cv cc a b st 0 old = Ok (z, k) /\ odd9 z /\ z mod 256 = t mod 256 /\
    bit k 128 = (256 <=? t) /\ bit k 64 = (128 <=? a mod 128 + b' mod 128 + carry_into cc st).
Proof.
  intros V S A B b' t.
  assert (Eb : b_in cv st b = b').
  { unfold b_in, b'. rewrite is_tc_spec by lia. destruct (complement cv st); [apply cpl, B|]. replace (cv =? 3) with false by lia. reflexivity. }
  assert (Rb : 0 <= b' < 256) by (unfold b'; destruct (complement cv st); lia).
  pose proof (carry_range cc st) as Rc.
  assert (Es : alu_sum cc a b' (carry_into cc st) old = (t mod 256, car a b' (carry_into cc st))).
  { unfold alu_sum. replace (adds cc) with true by (destruct S as [->|[->|[->|[->| ->]]]]; reflexivity).
    rewrite land_ones8. reflexivity. }
  destruct (par_out (t mod 256)) as (p & Ep & O & M & _); [apply Z.mod_pos_bound; lia|].
  exists (Z.lor (t mod 256) p), (car a b' (carry_into cc st)). unfold alu. rewrite Eb, (c_in_spec cc st S), Es.
  replace (cv =? 3) with false by lia. rewrite Ep. cbn [bind]. rewrite Z.lxor_0_r.
  destruct (car_spec a b' (carry_into cc st) A Rb Rc) as [K1 K2]. repeat split; try assumption; try apply O.
Qed.

(** Decimal sums. *)
Definition dec_ok (a b c : Z) (st : Z) (cpl : bool) : bool :=
  let b' := if cpl then 99 - b else b in
  let t := a + b' + c in
  let bb := if cpl then Z.lxor (bcd b) 255 else Z.lor (Z.land (bcd b + 96) 240) (Z.land (bcd b + 6) 15) in
  let z := bcd a + bb + c in
  let k := car (bcd a) bb c in
  let r := dec_fix (Z.land z 255) k in
  (r =? bcd (t mod 100)) && Bool.eqb (bit k 128) (100 <=? t).
Lemma dec_sweep a b c (cp : bool) : 0 <= a < 100 -> 0 <= b < 100 -> 0 <= c <= 1 -> dec_ok a b c 0 cp = true.
Proof.
  intros A B C.
  pose proof (sweep2 100 100 (fun a b => dec_ok a b 0 0 true && dec_ok a b 0 0 false && dec_ok a b 1 0 true && dec_ok a b 1 0 false) ltac:(vm_compute; reflexivity) a b A B) as S.
  rewrite !andb_true_iff in S. destruct S as [[[? ?] ?] ?]. assert (D : c = 0 \/ c = 1) by lia. destruct D as [-> | ->]; destruct cp; assumption.
Qed.
Lemma bcd_range n : 0 <= n < 100 -> 0 <= bcd n < 256.
Proof. intros H. unfold bcd. Z.to_euclidean_division_equations. lia. Qed.
Lemma alu_dec cc a b st old : is_sum cc -> 0 <= a < 100 -> 0 <= b < 100 ->
  let t := a + (if ibit st 0 then 99 - b else b) + carry_into cc st in
  exists z k, alu 3 cc (bcd a) (bcd b) st 0 old = Ok (z, k) /\ odd9 z /\ z mod 256 = bcd (t mod 100) /\ bit k 128 = (100 <=? t).
Proof.
  intros S A B t. pose proof (carry_range cc st) as Rc.
  pose proof (dec_sweep a b (carry_into cc st) (ibit st 0) A B Rc) as D. unfold dec_ok in D. cbv zeta in D.
  apply andb_prop in D as [D1 D2]. apply Z.eqb_eq in D1. apply Bool.eqb_prop in D2.
  set (bb := if ibit st 0 then _ else _) in D1, D2.
  assert (Eb : b_in 3 st (bcd b) = bb).
  { unfold b_in. rewrite is_tc_spec by lia. unfold complement. cbn [Z.eqb Pos.eqb orb andb]. reflexivity. }
  destruct (par_out (bcd (t mod 100))) as (p & Ep & O & M & _). { apply bcd_range, Z.mod_pos_bound. lia. }
  exists (Z.lor (bcd (t mod 100)) p), (car (bcd a) bb (carry_into cc st)).
  unfold alu. rewrite Eb, (c_in_spec cc st S). unfold alu_sum.
  replace (adds cc) with true by (destruct S as [->|[->|[->|[->| ->]]]]; reflexivity). cbn [Z.eqb Pos.eqb].
  fold (car (bcd a) bb (carry_into cc st)).
  rewrite D1. unfold t in *. rewrite Ep. cbn [bind]. rewrite Z.lxor_0_r. repeat split; try assumption; apply O.
Qed.

(** The logical functions. *)
Lemma alu_log cv cc a b st old : 0 <= cv < 3 -> cc = 2 \/ cc = 3 \/ cc = 7 -> 0 <= a < 256 -> 0 <= b < 256 ->
  let b' := if complement cv st then 255 - b else b in
  exists z, alu cv cc a b st 0 old = Ok (z, 0) /\ odd9 z /\
    z mod 256 = (if cc =? 2 then Z.land a b' else if cc =? 3 then Z.lor a b' else Z.lxor a b').
Proof.
  intros V S A B b'.
  assert (Eb : b_in cv st b = b').
  { unfold b_in, b'. rewrite is_tc_spec by lia. destruct (complement cv st); [apply cpl, B|]. replace (cv =? 3) with false by lia. reflexivity. }
  assert (Rb : 0 <= b' < 256) by (unfold b'; destruct (complement cv st); lia).
  set (r := if cc =? 2 then _ else _).
  assert (Er : forall c, alu_sum cc a b' c old = (r, 0)) by (intros c; unfold r; destruct S as [->|[->| ->]]; reflexivity).
  assert (Rr : 0 <= r < 256).
  { assert (G : forall x, 0 <= x -> Z.log2 x < 8 -> x < 256) by (intros x X L; destruct (Z.eq_dec x 0); [lia|]; apply Z.log2_lt_pow2 in L; lia).
    assert (La : Z.log2 a < 8) by (destruct (Z.eq_dec a 0) as [->|]; [reflexivity|apply Z.log2_lt_pow2; lia]).
    assert (Lb : Z.log2 b' < 8) by (destruct (Z.eq_dec b' 0) as [->|]; [reflexivity|apply Z.log2_lt_pow2; lia]).
    unfold r. destruct (cc =? 2); [|destruct (cc =? 3)].
    - assert (N : 0 <= Z.land a b') by (apply Z.land_nonneg; lia). split; [exact N|]. apply G; [exact N|]. pose proof (Z.log2_land a b'). lia.
    - assert (N : 0 <= Z.lor a b') by (apply Z.lor_nonneg; lia). split; [exact N|]. apply G; [exact N|]. rewrite Z.log2_lor by lia. lia.
    - assert (N : 0 <= Z.lxor a b') by (apply Z.lxor_nonneg; lia). split; [exact N|]. apply G; [exact N|]. pose proof (Z.log2_lxor a b' ltac:(lia) ltac:(lia)). lia. }
  destruct (par_out r Rr) as (p & Ep & O & M & _). exists (Z.lor r p).
  unfold alu. rewrite Eb, Er. replace (cv =? 3) with false by lia. rewrite Ep. cbn [bind]. rewrite Z.lxor_0_r. repeat split; try assumption; apply O.
Qed.
