From Verif Require Export D2841.Spec.
Open Scope Z_scope.

(** *** Bits *)
Lemma on_bit s r k : 0 <= k < 8 -> on s r (Z.shiftl 1 (7 - k)) = bit_of (c_r s r) k.
Proof.
  intros K. unfold on, bit_of. destruct (Z.testbit (c_r s r) (7 - k)) eqn:T.
  - destruct (Z.eqb_spec (Z.land (c_r s r) (Z.shiftl 1 (7 - k))) 0) as [E|]; [|reflexivity]. apply (f_equal (fun x => Z.testbit x (7 - k))) in E. rewrite Z.land_spec, T, Z.shiftl_1_l, Z.pow2_bits_true, Z.bits_0 in E by lia. discriminate.
  - assert (E : Z.land (c_r s r) (Z.shiftl 1 (7 - k)) = 0); [|rewrite E; reflexivity]. apply Z.bits_inj'. intros n N. rewrite Z.land_spec, Z.shiftl_1_l, Z.pow2_bits_eqb, Z.bits_0 by lia. destruct (Z.eqb_spec (7 - k) n); [subst n; rewrite T|]; apply andb_false_r || reflexivity.
Qed.
Lemma byte_land x y : 0 <= x -> is_byte y -> is_byte (Z.land x y).
Proof.
  unfold is_byte. intros X Y. assert (N : 0 <= Z.land x y) by (apply Z.land_nonneg; lia). split; [exact N|]. destruct (Z.eq_dec (Z.land x y) 0) as [->|NZ]; [lia|].
  apply (Z.log2_lt_pow2 _ 8); [lia|]. pose proof (Z.log2_land x y X ltac:(lia)). assert (Z.log2 y < 8) by (destruct (Z.eq_dec y 0) as [->|]; [cbn; lia|apply (Z.log2_lt_pow2 y 8); lia]). lia.
Qed.
Lemma byte_lor x y : is_byte x -> is_byte y -> is_byte (Z.lor x y).
Proof.
  unfold is_byte. intros X Y. assert (N : 0 <= Z.lor x y) by (apply Z.lor_nonneg; lia). split; [exact N|]. destruct (Z.eq_dec (Z.lor x y) 0) as [->|NZ]; [lia|].
  apply (Z.log2_lt_pow2 _ 8); [lia|]. rewrite Z.log2_lor by lia. assert (L : forall z, 0 <= z < 256 -> Z.log2 z < 8) by (intros z Z1; destruct (Z.eq_dec z 0) as [->|]; [cbn; lia|apply (Z.log2_lt_pow2 z 8); lia]).
  pose proof (L x X). pose proof (L y Y). lia.
Qed.
Lemma byte_lxor x y : is_byte x -> is_byte y -> is_byte (Z.lxor x y).
Proof.
  unfold is_byte. intros X Y. assert (N : 0 <= Z.lxor x y) by (apply Z.lxor_nonneg; lia). split; [exact N|]. destruct (Z.eq_dec (Z.lxor x y) 0) as [->|NZ]; [lia|].
  apply (Z.log2_lt_pow2 _ 8); [lia|]. pose proof (Z.log2_lxor x y ltac:(lia) ltac:(lia)). assert (L : forall z, 0 <= z < 256 -> Z.log2 z < 8) by (intros z Z1; destruct (Z.eq_dec z 0) as [->|]; [cbn; lia|apply (Z.log2_lt_pow2 z 8); lia]).
  pose proof (L x X). pose proof (L y Y). lia.
Qed.
Lemma byte_mod x : is_byte (x mod 256). Proof. apply Z.mod_pos_bound. lia. Qed.
Lemma byte_c x : (0 <=? x) && (x <? 256) = true -> is_byte x.
Proof. unfold is_byte. rewrite andb_true_iff, Z.leb_le, Z.ltb_lt. auto. Qed.
Lemma put_same r v f : put r v f r = v. Proof. unfold put. destruct (reg_eq r r); congruence. Qed.
Lemma put_other r v f x : x <> r -> put r v f x = f x. Proof. intros N. unfold put. destruct (reg_eq x r); congruence. Qed.
Lemma put_byte r v f : is_byte v -> (forall x, is_byte (f x)) -> forall x, is_byte (put r v f x).
Proof. intros V F x. unfold put. destruct (reg_eq x r); auto. Qed.

(** *** The arithmetic unit *)
Lemma alu_all a b c : is_byte a -> is_byte b -> 0 <= c < 2 -> negb (Z.land (carries a b ((a + b + c) mod 256) 0) 128 =? 0) = (256 <=? a + b + c).
Proof.
  intros A B C. pose proof (sweep2 256 256 (fun a b => forallb (fun c => Bool.eqb (negb (Z.land (carries a b ((a + b + c) mod 256) 0) 128 =? 0)) (256 <=? a + b + c)) [0; 1]) ltac:(vm_compute; reflexivity) a b A B) as S.
  cbv beta in S. rewrite forallb_forall in S. apply Bool.eqb_prop. apply S. assert (c = 0 \/ c = 1) as [->| ->] by lia; cbn; auto.
Qed.
Lemma adds_eq cc : adds cc = true -> forall a b c o, alu a b c cc = (a + b + c) mod 256 /\ carries a b o cc = carries a b o 0.
Proof. intros H a b c o. unfold alu, carries. rewrite H. auto. Qed.
Definition final_b (s : ctx) (m : mi) : Z := let b := bbus s m in if CV m =? 0 then b else 255 - b.
Lemma alu_ok s m a : ctx_ok s -> good_mi m -> is_byte a ->
  let b := final_b s m in let o := alu a b (carry_in s (CC m)) (CC m) in
  (o, negb (Z.land (carries a b o (CC m)) 128 =? 0)) = compute (CC m) (CV m) a (operand s m) (bit_of (c_r s ST) 3) /\ is_byte o /\ is_byte b.
Proof.
  intros (R & _) (HCA & HCB & HCK & HCL & HCH & HCN & HCN4 & HCD & HCV & HCC & HCS & HBP) A.
  assert (BB : bbus s m = operand s m /\ is_byte (operand s m)).
  { unfold bbus, operand. destruct (Z.eqb_spec (CB m) 0); [split; [reflexivity|apply byte_c; reflexivity]|]. destruct (Z.eqb_spec (CB m) 1); [split; [reflexivity|apply R]|]. destruct (Z.eqb_spec (CB m) 2); [split; [apply Z.mod_small; exact HCK|exact HCK]|].
    destruct (Z.eqb_spec (CB m) 3); [split; [reflexivity|apply R]|lia]. }
  destruct BB as [BB OB]. unfold final_b. rewrite BB. cbv zeta. set (b0 := operand s m) in *. clearbody b0. set (b := if CV m =? 0 then b0 else 255 - b0).
  assert (HB : is_byte b) by (unfold b; destruct (CV m =? 0); unfold is_byte in *; lia).
  assert (CI : carry_in s (CC m) = if (CC m =? 1) || (CC m =? 5) || ((CC m =? 6) && bit_of (c_r s ST) 3) then 1 else 0).
  { unfold carry_in. change B3 with (Z.shiftl 1 (7 - 3)). rewrite on_bit by lia. destruct (Z.eqb_spec (CC m) 6) as [->|]; [cbn; destruct (bit_of (c_r s ST) 3); reflexivity|]. rewrite andb_false_l, orb_false_r. reflexivity. }
  unfold compute. cbv zeta. rewrite <- CI. fold b. clear CI. set (c := carry_in s (CC m)). assert (HC : 0 <= c < 2) by (unfold c, carry_in; repeat match goal with |- context [if ?x then _ else _] => destruct x end; lia). clearbody c.
  destruct (adds (CC m)) eqn:AD.
  - destruct (adds_eq (CC m) AD a b c ((a + b + c) mod 256)) as [E1 E2]. rewrite E1, E2, alu_all by assumption. split; [|split; [apply byte_mod|exact HB]].
    assert (N : (CC m =? 2) = false /\ (CC m =? 3) = false /\ (CC m =? 7) = false) by (unfold adds in AD; rewrite !orb_true_iff, !Z.eqb_eq in AD; repeat split; apply Z.eqb_neq; lia). destruct N as (-> & -> & ->). unfold b. destruct (CV m =? 0); [reflexivity|]. unfold sub. f_equal.
    + rewrite <- (Z_mod_plus_full (a - b0 - (1 - c)) 1 256). f_equal. lia.
    + destruct (Z.leb_spec 256 (a + (255 - b0) + c)), (Z.leb_spec (b0 + (1 - c)) a); lia.
  - unfold alu, carries. rewrite AD. unfold adds in AD. rewrite !orb_false_iff, !Z.eqb_neq in AD. change (Z.land 0 128 =? 0) with true. cbn [negb].
    destruct (Z.eqb_spec (CC m) 2); [split; [reflexivity|split; [apply byte_land; [unfold is_byte in A; lia|exact HB]|exact HB]]|]. destruct (Z.eqb_spec (CC m) 3); [split; [reflexivity|split; [apply byte_lor; assumption|exact HB]]|]. destruct (Z.eqb_spec (CC m) 7); [|lia].
    split; [reflexivity|split; [apply byte_lxor; assumption|exact HB]].
Qed.

(** *** What the parts of a microinstruction leave alone *)
Ltac ifs := repeat match goal with |- context [if ?b then _ else _] => destruct b end.
Lemma abus_form s d m : ctx_ok s -> good_mi m -> exists a t v, abus s d m = set_a a (set_tr1 t (set_srvi v s)) /\ is_byte a /\
  (forall r, source (CA m) = Some r -> a = c_r s r) /\ (CA m = 15 -> a = c_bo s) /\ ((CA m = 0 \/ 18 <= CA m <= 27) -> a = 0) /\
  (t = true -> c_tr1 s = true \/ CA m = 15 \/ (CA m = 12 /\ bit_of (c_r s IG) 2 = true)) /\ (c_tr1 s = true -> t = true) /\
  v = (if CA m =? 13 then false else c_srvi s).
Proof.
  intros (R & OA & _ & _ & OB & _) (HCA & _). unfold abus. cbv zeta.
  set (Q1 := (CA m =? 0) || ((18 <=? CA m) && (CA m <=? 27)) || (CA m =? 16)). destruct Q1 eqn:E1; unfold Q1 in E1; clear Q1.
  { rewrite !orb_true_iff, andb_true_iff, !Z.leb_le, !Z.eqb_eq in E1. exists 0, (c_tr1 s), (c_srvi s). split; [destruct s; reflexivity|]. split; [apply byte_c; reflexivity|]. split; [intros r H; exfalso; unfold source in H|split; [lia|split; [auto|split; [auto|split; [auto|]]]]].
    - repeat match type of H with context [?x =? ?y] => destruct (Z.eqb_spec x y); [lia|] end. discriminate.
    - destruct (Z.eqb_spec (CA m) 13); [lia|reflexivity]. }
  rewrite !orb_false_iff, andb_false_iff, !Z.eqb_neq, !Z.leb_gt in E1.
  destruct (Z.ltb_spec (CA m) 14).
  { assert (K : exists r, a_reg (CA m) = Some r /\ source (CA m) = Some r).
    { assert (C : In (CA m) [1;2;3;4;5;6;7;8;9;10;11;12;13]) by (cbn; lia). cbn in C. repeat destruct C as [C|C]; try contradiction; rewrite <- C; eexists; split; reflexivity. }
    destruct K as (r & -> & K). exists (c_r s r), (if (CA m =? 12) && on s IG B2 then true else c_tr1 s), (if CA m =? 13 then false else c_srvi s).
    change (on (set_a (c_r s r) s) IG B2) with (on s IG B2). split; [|split; [apply R|split; [intros r' H'; rewrite K in H'; injection H' as <-; reflexivity|split; [lia|split; [lia|split; [|split; [|reflexivity]]]]]]].
    - destruct (Z.eqb_spec (CA m) 12), (Z.eqb_spec (CA m) 13); try lia; cbn [andb]; try (destruct (on s IG B2)); destruct s; reflexivity.
    - change B2 with (Z.shiftl 1 (7 - 2)). rewrite on_bit by lia. destruct (Z.eqb_spec (CA m) 12); cbn [andb]; [|auto]. destruct (bit_of (c_r s IG) 2); auto.
    - intros ->. ifs; reflexivity. }
  assert (NS : forall r, source (CA m) = Some r -> CA m = 28 /\ r = SC).
  { intros r H'. unfold source in H'. repeat match type of H' with context [?x =? ?y] => destruct (Z.eqb_spec x y); [first [lia|injection H' as <-; auto]|] end. discriminate. }
  destruct (Z.eqb_spec (CA m) 14).
  { match goal with |- context [set_a ?x s] => exists x, (c_tr1 s), (c_srvi s); assert (BX : is_byte x) by (destruct d as [d|]; [destruct (d_type d)|]; ifs; apply byte_c; reflexivity) end.
    split; [destruct s; reflexivity|]. split; [exact BX|]. split; [intros r Hr; apply NS in Hr; lia|]. split; [lia|]. split; [lia|]. split; [auto|]. split; [auto|]. destruct (Z.eqb_spec (CA m) 13); [lia|reflexivity]. }
  destruct (Z.eqb_spec (CA m) 15).
  { exists (c_bo s), true, (c_srvi s). rewrite Z.mod_small by exact OB. split; [destruct s; reflexivity|]. split; [exact OB|]. split; [intros r Hr; apply NS in Hr; lia|]. split; [auto|]. split; [lia|]. split; [auto|]. split; [auto|]. destruct (Z.eqb_spec (CA m) 13); [lia|reflexivity]. }
  destruct (Z.eqb_spec (CA m) 28).
  { exists (c_r s SC), (c_tr1 s), (c_srvi s). split; [destruct s; reflexivity|]. split; [apply R|]. split; [intros r Hr; apply NS in Hr; destruct Hr as [_ ->]; reflexivity|]. split; [lia|]. split; [lia|]. split; [auto|]. split; [auto|]. destruct (Z.eqb_spec (CA m) 13); [lia|reflexivity]. }
  assert (REST : forall x, is_byte x -> exists a t v, set_a x s = set_a a (set_tr1 t (set_srvi v s)) /\ is_byte a /\
    (forall r, source (CA m) = Some r -> a = c_r s r) /\ (CA m = 15 -> a = c_bo s) /\ ((CA m = 0 \/ 18 <= CA m <= 27) -> a = 0) /\
    (t = true -> c_tr1 s = true \/ CA m = 15 \/ (CA m = 12 /\ bit_of (c_r s IG) 2 = true)) /\ (c_tr1 s = true -> t = true) /\ v = (if CA m =? 13 then false else c_srvi s)).
  { intros x X. exists x, (c_tr1 s), (c_srvi s). split; [destruct s; reflexivity|]. split; [exact X|]. split; [intros r Hr; apply NS in Hr; lia|]. split; [lia|]. split; [lia|]. split; [auto|]. split; [auto|]. destruct (Z.eqb_spec (CA m) 13); [lia|reflexivity]. }
  assert (SAME : set_a (c_a s) s = s) by (destruct s; reflexivity). pose proof (REST (c_a s) OA) as KEEP. rewrite SAME in KEEP.
  destruct (CA m =? 29); [apply REST; destruct d; [apply byte_mod|apply byte_c; reflexivity]|].
  destruct (CA m =? 30); [destruct d; [apply REST; apply byte_mod|exact KEEP]|].
  destruct (CA m =? 31); [apply REST; destruct d; [ifs; [apply byte_c; reflexivity|apply byte_mod]|apply byte_c; reflexivity]|].
  exact KEEP.
Qed.

(** Drives move by the operations of Dasd.Spec only. *)
Definition moved (l : list dop) (d d' : option dasd) : Prop :=
  match d with None => d' = None | Some x => exists y, d' = Some y /\ do_ops x l = Ok y end.
Definition ops_in (l : list dop) (P : dop -> Prop) : Prop := Forall P l.
Lemma nth_set {A} i (x : A) l j : (i < length l)%nat -> nth_error (set_nth i x l) j = if Nat.eqb j i then Some x else nth_error l j.
Proof.
  intros L. unfold set_nth. destruct (Nat.eqb_spec j i) as [->|N].
  - rewrite nth_error_app2; rewrite firstn_length_le by lia; [rewrite Nat.sub_diag; reflexivity|lia].
  - destruct (Nat.lt_ge_cases j i).
    + rewrite nth_error_app1 by (rewrite firstn_length_le by lia; lia). revert i l L H N. induction j; intros [|i] [|y l] L H N; cbn in *; try lia; [reflexivity|]. apply IHj; lia.
    + rewrite nth_error_app2; rewrite firstn_length_le by lia; [|lia]. replace (j - i)%nat with (S (j - S i)) by lia. cbn [nth_error]. rewrite <- (firstn_skipn (S i) l) at 2. rewrite nth_error_app2; rewrite firstn_length_le by lia; [reflexivity|lia].
Qed.
Lemma len_set {A} i (x : A) l : (i < length l)%nat -> length (set_nth i x l) = length l.
Proof. intros L. unfold set_nth. rewrite app_length. cbn [length]. rewrite firstn_length_le, skipn_length by lia. lia. Qed.
Lemma nth_lt {A} i (x : A) l : nth_error l i = Some x -> (i < length l)%nat.
Proof. intros H. apply nth_error_Some. congruence. Qed.
