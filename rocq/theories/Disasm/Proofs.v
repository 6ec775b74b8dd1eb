(** The text of an instruction. *)
From Verif Require Import Disasm.Spec.

(** *** The table *)
Definition good_char (c : ascii) : bool := if ascii_dec c " " then false else if ascii_dec c "%" then false else if ascii_dec c "?" then false else true.
Definition teqb (x y : text) : bool := if list_eq_dec ascii_dec x y then true else false.
Definition by_name (t : text) : option Z := match find (fun e => teqb (str (snd (fst e))) t) optab with Some (op, _, _) => Some op | None => None end.
Definition chk (op : Z) : bool :=
  match lookup op with
  | None => negb (s360 op) || (op =? 132) || (op =? 133)
  | Some (n, t) =>
    let k := Z.land t 7 in
    negb (negb (s360 op) || (op =? 132) || (op =? 133)) && forallb good_char (str n) && (length (str n) <=? 4)%nat && (match by_name (str n) with Some o => o =? op | None => false end) &&
    (if op <? 64 then (k =? 1) && Bool.eqb (has t 16) (op =? 10) && Bool.eqb (has t 8) (one_reg op)
     else if op <? 192 then
       ((k =? 2) && negb (no_r3 op) && negb (no_imm op)) || ((k =? 3) && Bool.eqb (has t 32) (no_r3 op) && negb (no_imm op)) || ((k =? 4) && Bool.eqb (has t 32) (no_imm op) && negb (no_r3 op))
     else (k =? 5))
  end.
Lemma chk_ok op : is_byte op -> chk op = true.
Proof. intros H. exact (sweep 256 chk ltac:(vm_compute; reflexivity) op H). Qed.

(** *** Numbers *)
Definition isdig (c : ascii) : bool := let n := nat_of_ascii c in (48 <=? n)%nat && (n <=? 57)%nat.
Fixpoint parse (acc : Z) (t : text) : Z * text :=
  match t with c :: r => if isdig c then parse (10 * acc + (Z.of_nat (nat_of_ascii c) - 48)) r else (acc, t) | [] => (acc, []) end.
Lemma digit_dig d : 0 <= d < 10 -> isdig (digit d) = true /\ Z.of_nat (nat_of_ascii (digit d)) - 48 = d.
Proof.
  intros H. pose proof (sweep 10 (fun d => isdig (digit d) && (Z.of_nat (nat_of_ascii (digit d)) - 48 =? d)) ltac:(vm_compute; reflexivity) d H) as S. cbn beta in S.
  apply andb_true_iff in S. destruct S as [S1 S2]. apply Z.eqb_eq in S2. split; assumption.
Qed.
Lemma parse_digit d acc r : 0 <= d < 10 -> parse acc (digit d :: r) = parse (10 * acc + d) r.
Proof. intros H. destruct (digit_dig d H) as [D V]. cbn [parse]. rewrite D, V. reflexivity. Qed.
Lemma parse_dec n c r : is_byte n -> isdig c = false -> parse 0 (dec n ++ c :: r) = (n, c :: r).
Proof.
  intros B C. assert (E : forall m, parse m (c :: r) = (m, c :: r)) by (intros m; cbn [parse]; rewrite C; reflexivity). unfold dec, is_byte in *.
  destruct (Z.ltb_spec n 10); [|destruct (Z.ltb_spec n 100)]; cbn [app].
  - rewrite parse_digit by lia. rewrite E. f_equal; lia.
  - rewrite parse_digit by (split; [apply Z.div_pos; lia|apply Z.div_lt_upper_bound; lia]). rewrite parse_digit by (apply Z.mod_pos_bound; lia). rewrite E. f_equal. pose proof (Z.div_mod n 10 ltac:(lia)). lia.
  - rewrite parse_digit by (split; [apply Z.div_pos; lia|apply Z.div_lt_upper_bound; lia]). rewrite parse_digit by (apply Z.mod_pos_bound; lia). rewrite parse_digit by (apply Z.mod_pos_bound; lia).
    rewrite E. f_equal. pose proof (Z.div_mod n 10 ltac:(lia)). pose proof (Z.div_mod (n / 10) 10 ltac:(lia)) as H2. rewrite Z.div_div in H2 by lia. change (10 * 10) with 100 in H2. lia.
Qed.
Lemma dec_sep n m c c' r r' : is_byte n -> is_byte m -> isdig c = false -> isdig c' = false -> dec n ++ c :: r = dec m ++ c' :: r' -> n = m /\ c = c' /\ r = r'.
Proof. intros N M C C' E. pose proof (parse_dec n c r N C) as P. rewrite E, (parse_dec m c' r' M C') in P. injection P as <- <- <-. repeat split. Qed.
Lemma digit_inj d e : 0 <= d < 16 -> 0 <= e < 16 -> digit d = digit e -> d = e.
Proof.
  assert (S : forall d, 0 <= d < 16 -> (if Z.of_nat (nat_of_ascii (digit d)) <? 58 then Z.of_nat (nat_of_ascii (digit d)) - 48 else Z.of_nat (nat_of_ascii (digit d)) - 87) = d).
  { intros x X. apply Z.eqb_eq. exact (sweep 16 (fun d => (if Z.of_nat (nat_of_ascii (digit d)) <? 58 then Z.of_nat (nat_of_ascii (digit d)) - 48 else Z.of_nat (nat_of_ascii (digit d)) - 87) =? d) ltac:(vm_compute; reflexivity) x X). }
  intros D E H. rewrite <- (S d D), <- (S e E), H. reflexivity.
Qed.
Lemma hex2_inj n m r r' : is_byte n -> is_byte m -> hex2 n ++ r = hex2 m ++ r' -> n = m /\ r = r'.
Proof.
  intros N M E. unfold hex2, is_byte in *. cbn [app] in E. injection E as E1 E2 E3. split; [|exact E3].
  apply digit_inj in E1; [|split; [apply Z.div_pos; lia|apply Z.div_lt_upper_bound; lia]|split; [apply Z.div_pos; lia|apply Z.div_lt_upper_bound; lia]].
  apply digit_inj in E2; [|apply Z.mod_pos_bound; lia|apply Z.mod_pos_bound; lia]. pose proof (Z.div_mod n 16 ltac:(lia)). pose proof (Z.div_mod m 16 ltac:(lia)). lia.
Qed.
Lemma nibbles b : is_byte b -> 0 <= hi b < 16 /\ 0 <= lo b < 16 /\ hi b = b / 16 /\ b = 16 * hi b + lo b /\ (Z.land b 240 =? 0) = (hi b =? 0).
Proof.
  intros B. pose proof (sweep 256 (fun b => (0 <=? hi b) && (hi b <? 16) && (0 <=? lo b) && (lo b <? 16) && (hi b =? b / 16) && (b =? 16 * hi b + lo b) && Bool.eqb (Z.land b 240 =? 0) (hi b =? 0)) ltac:(vm_compute; reflexivity) b B) as S. cbn beta in S.
  rewrite !andb_true_iff in S. destruct S as [[[[[[S1 S2] S3] S4] S5] S6] S7]. apply Bool.eqb_prop in S7. apply Z.leb_le in S1. apply Z.ltb_lt in S2. apply Z.leb_le in S3. apply Z.ltb_lt in S4. apply Z.eqb_eq in S5. apply Z.eqb_eq in S6.
  split; [split; assumption|]. split; [split; assumption|]. split; [exact S5|]. split; [exact S6|exact S7].
Qed.
Lemma nib_byte x : 0 <= x < 16 -> is_byte x. Proof. unfold is_byte. lia. Qed.
Lemma disp_inj b c b' c' r r' : is_byte b -> is_byte c -> is_byte b' -> is_byte c' -> disp b c ++ r = disp b' c' ++ r' -> lo b = lo b' /\ c = c' /\ r = r'.
Proof.
  intros B C B' C' E. unfold disp in E. rewrite <- !app_assoc in E. unfold hex1 at 1 2 in E. cbn [app] in E. injection E as E1 E2 E3 E4. apply digit_inj in E1; [|apply nibbles; exact B|apply nibbles; exact B'].
  destruct (hex2_inj c c' r r' C C') as [H1 H2]; [unfold hex2; cbn [app]; congruence|]. split; [exact E1|]. split; assumption.
Qed.

(** *** The text *)
Lemma dec_len n : (length (dec n) <= 3)%nat.
Proof. unfold dec. destruct (n <? 10); [cbn; lia|]. destruct (n <? 100); cbn; lia. Qed.
Definition opt_base (open close : text) (b : Z) : text := if hi b =? 0 then [] else open ++ dec (hi b) ++ close.
Definition body (t b1 b2 b3 b4 b5 : Z) : text :=
  let k := Z.land t 7 in
  if k =? 1 then if has t 16 then hex2 b1 ++ str " " else if has t 8 then dec (hi b1) ++ str " " else dec (hi b1) ++ str "," ++ dec (lo b1) ++ str " "
  else if k =? 2 then dec (hi b1) ++ str "," ++ disp b2 b3 ++ str "(" ++ dec (lo b1) ++ str "," ++ dec (hi b2) ++ str ") "
  else if k =? 3 then dec (hi b1) ++ str "," ++ (if has t 32 then [] else dec (lo b1) ++ str ",") ++ disp b2 b3 ++ opt_base (str "(") (str ")") b2
  else if k =? 4 then disp b2 b3 ++ opt_base (str "(") (str ")") b2 ++ (if has t 32 then [] else str "," ++ hex2 b1)
  else disp b2 b3 ++ str "(" ++ dec (if has t 24 then hi b1 else b1) ++ opt_base (str ",") [] b2 ++ str ")," ++ disp b4 b5 ++ str "(" ++ (if has t 24 then dec (lo b1) ++ str "," else []) ++ dec (hi b4) ++ str ")".
Lemma put_ok buf t : (length t <= 20)%nat -> (length buf <= 100)%nat -> put buf t = Ok (buf ++ t).
Proof. intros H1 H2. unfold put. rewrite app_length. destruct (Nat.ltb_spec 100 (length t + 1)); [lia|]. destruct (Nat.ltb_spec 256 (length buf + length t + 1)); [lia|reflexivity]. Qed.
Lemma start_ok t : (length t <= 100)%nat -> start t = Ok t.
Proof. intros H. unfold start. destruct (Nat.ltb_spec 256 (length t + 1)); [lia|reflexivity]. Qed.
Ltac len := unfold opt_base, disp, hex1, hex2, str; cbn [list_ascii_of_string]; repeat match goal with |- context [if ?b then _ else _] => destruct b end; rewrite ?app_length; cbn [length]; rewrite ?app_length; cbn [length app];
  repeat match goal with |- context [length (dec ?n)] => let H := fresh in pose proof (dec_len n) as H; generalize dependent (length (dec n)); intros end; try lia.
Lemma body_len t b1 b2 b3 b4 b5 : (length (body t b1 b2 b3 b4 b5) <= 40)%nat.
Proof. unfold body. len. Qed.
Lemma operands_ok op b1 b2 b3 b4 b5 n t : (length (str n) <= 4)%nat -> is_byte b2 -> In (Z.land t 7) [1; 2; 3; 4; 5] -> operands [op; b1; b2; b3; b4; b5] n t = Ok (str n ++ str " " ++ body t b1 b2 b3 b4 b5).
Proof.
  intros L B2 K. unfold operands. cbn [byte_at nth_error bind]. destruct (nibbles b2 B2) as (_ & _ & _ & _ & E). rewrite E. unfold body, opt_base. set (N := str n) in *. assert (LN : (length (N ++ str " ") <= 5)%nat) by (rewrite app_length; cbn; lia). rewrite (app_assoc N). set (M := N ++ str " ") in *.
  destruct K as [<-|[<-|[<-|[<-|[<-|[]]]]]]; cbn [Z.eqb Pos.eqb].
  - destruct (has t 16); [|destruct (has t 8)]; apply start_ok; len.
  - apply start_ok. len.
  - rewrite start_ok by len. cbn [bind]. destruct (has t 32); cbn [bind].
    + rewrite put_ok by len. cbn [bind]. destruct (hi b2 =? 0); cbn [negb]; [rewrite !app_nil_r, <- !app_assoc; reflexivity|]. rewrite put_ok by len. rewrite <- !app_assoc. reflexivity.
    + rewrite put_ok by len. cbn [bind]. rewrite put_ok by len. cbn [bind]. destruct (hi b2 =? 0); cbn [negb]; [rewrite !app_nil_r, <- !app_assoc; reflexivity|]. rewrite put_ok by len. rewrite <- !app_assoc. reflexivity.
  - rewrite start_ok by len. cbn [bind]. destruct (hi b2 =? 0); cbn [negb bind].
    + destruct (has t 32); [rewrite !app_nil_r, <- ?app_assoc; reflexivity|]. rewrite put_ok by len. rewrite <- !app_assoc. reflexivity.
    + rewrite put_ok by len. cbn [bind]. destruct (has t 32); [rewrite !app_nil_r, <- ?app_assoc; reflexivity|]. rewrite put_ok by len. rewrite <- !app_assoc. reflexivity.
  - rewrite start_ok by len. cbn [bind]. rewrite put_ok by len. cbn [bind]. destruct (hi b2 =? 0); cbn [negb bind].
    + rewrite put_ok by len. cbn [bind]. rewrite put_ok by len. cbn [bind]. rewrite put_ok by len. rewrite <- !app_assoc. reflexivity.
    + rewrite put_ok by len. cbn [bind]. rewrite put_ok by len. cbn [bind]. rewrite put_ok by len. cbn [bind]. rewrite put_ok by len. rewrite <- !app_assoc. cbn [app]. reflexivity.
Qed.
Definition print_text (v : list Z) : text :=
  match v with
  | op :: b1 :: b2 :: b3 :: b4 :: b5 :: _ =>
    match lookup op with Some (n, t) => str n ++ str " " ++ body t b1 b2 b3 b4 b5 ++ str " " | None => str "?" ++ hex2 op ++ str "?" ++ str " " end
  | _ => []
  end.
Lemma kinds op n t : is_byte op -> lookup op = Some (n, t) -> In (Z.land t 7) [1; 2; 3; 4; 5] /\ (length (str n) <= 4)%nat /\ forallb good_char (str n) = true /\ by_name (str n) = Some op /\ negb (s360 op) || (op =? 132) || (op =? 133) = false /\
  (if op <? 64 then (Z.land t 7 =? 1) && Bool.eqb (has t 16) (op =? 10) && Bool.eqb (has t 8) (one_reg op)
     else if op <? 192 then
       ((Z.land t 7 =? 2) && negb (no_r3 op) && negb (no_imm op)) || ((Z.land t 7 =? 3) && Bool.eqb (has t 32) (no_r3 op) && negb (no_imm op)) || ((Z.land t 7 =? 4) && Bool.eqb (has t 32) (no_imm op) && negb (no_r3 op))
     else (Z.land t 7 =? 5)) = true.
Proof.
  intros B H. pose proof (chk_ok op B) as C. unfold chk in C. rewrite H in C. cbv zeta in C. rewrite !andb_true_iff in C. destruct C as [[[[C1 C2] C3] C4] C5]. apply negb_true_iff in C1. apply Nat.leb_le in C3.
  destruct (by_name (str n)) as [o|]; [|discriminate]. apply Z.eqb_eq in C4. subst o. split; [|split; [exact C3|split; [exact C2|split; [reflexivity|split; [exact C1|exact C5]]]]].
  destruct (op <? 64); [|destruct (op <? 192)]; rewrite ?andb_true_iff, ?orb_true_iff, ?andb_true_iff in C5; cbn [In]; repeat match goal with H : _ /\ _ |- _ => destruct H | H : _ \/ _ |- _ => destruct H | H : (_ =? _) = true |- _ => apply Z.eqb_eq in H end; auto 10.
Qed.
Lemma print_ok v : an_inst v -> print_inst v = Ok (print_text v) /\ (length (print_text v) < 256)%nat.
Proof.
  intros [L F]. destruct v as [|op [|b1 [|b2 [|b3 [|b4 [|b5 [|]]]]]]]; try discriminate. inversion F as [|? ? B0 F1]; subst. inversion F1 as [|? ? B1 F2]; subst. inversion F2 as [|? ? B2 F3]; subst.
  unfold print_inst, print_text. cbn [byte_at nth_error bind]. destruct (lookup op) as [[n t]|] eqn:E.
  - destruct (kinds op n t B0 E) as (K & LN & _). rewrite (operands_ok op b1 b2 b3 b4 b5 n t LN B2 K). cbn [bind]. pose proof (body_len t b1 b2 b3 b4 b5) as BL.
    match goal with |- context [(256 <? length ?b + 2)%nat] => assert (LL : (length b <= 45)%nat) by (rewrite !app_length; cbn [str list_ascii_of_string length]; lia) end.
    destruct (Nat.ltb_spec 256 (length (str n ++ str " " ++ body t b1 b2 b3 b4 b5) + 2)); [lia|]. rewrite <- !app_assoc. split; [reflexivity|]. rewrite !app_length in *. cbn [str list_ascii_of_string length] in *. lia.
  - rewrite start_ok by (cbn; lia). cbn. split; [reflexivity|lia].
Qed.
(** *** No percent sign *)
Definition np (c : ascii) : bool := if ascii_dec c "%" then false else true.
Lemma digit_np d : 0 <= d < 16 -> np (digit d) = true.
Proof. intros H. exact (sweep 16 (fun d => np (digit d)) ltac:(vm_compute; reflexivity) d H). Qed.
Lemma hex2_np n : is_byte n -> forallb np (hex2 n) = true.
Proof. intros N. unfold hex2, is_byte in *. cbn [forallb]. rewrite !digit_np; [reflexivity|apply Z.mod_pos_bound; lia|split; [apply Z.div_pos; lia|apply Z.div_lt_upper_bound; lia]]. Qed.
Lemma dec_np n : is_byte n -> forallb np (dec n) = true.
Proof.
  intros N. unfold dec, is_byte in *. destruct (Z.ltb_spec n 10); [|destruct (Z.ltb_spec n 100)]; cbn [forallb]; rewrite ?digit_np; try reflexivity; try lia;
  try (split; [apply Z.div_pos; lia|apply Z.div_lt_upper_bound; lia]); match goal with |- 0 <= ?x mod 10 < 16 => pose proof (Z.mod_pos_bound x 10 ltac:(lia)); lia end.
Qed.
Lemma disp_np b c : is_byte b -> is_byte c -> forallb np (disp b c) = true.
Proof. intros B C. unfold disp. rewrite forallb_app, hex2_np by exact C. unfold hex1. cbn [forallb]. rewrite digit_np by (apply nibbles; exact B). reflexivity. Qed.
Lemma print_np v : an_inst v -> ~ In "%"%char (print_text v).
Proof.
  intros [L F] I. assert (A : forallb np (print_text v) = true).
  2: { rewrite forallb_forall in A. specialize (A _ I). vm_compute in A. discriminate. }
  clear I. destruct v as [|op [|b1 [|b2 [|b3 [|b4 [|b5 [|]]]]]]]; try discriminate. repeat match goal with H : Forall is_byte (_ :: _) |- _ => inversion H; clear H; subst end.
  unfold print_text. destruct (lookup op) as [[n t]|] eqn:E.
  - destruct (kinds op n t ltac:(assumption) E) as (_ & _ & G & _). rewrite !forallb_app. assert (GN : forallb np (str n) = true).
    { rewrite forallb_forall in G |- *. intros x X. specialize (G x X). unfold good_char in G. unfold np. destruct (ascii_dec x " "); [discriminate|]. destruct (ascii_dec x "%"); [discriminate|reflexivity]. }
    rewrite GN. change (forallb np (str " ")) with true. rewrite andb_true_r. cbn [andb]. unfold body, opt_base.
    assert (HN : forall b, is_byte b -> is_byte (hi b) /\ is_byte (lo b)) by (intros b B; destruct (nibbles b B) as (X1 & X2 & _); split; apply nib_byte; assumption).
    destruct (HN b1) as [Hb1 Lb1]; [assumption|]. destruct (HN b2) as [Hb2 Lb2]; [assumption|]. destruct (HN b4) as [Hb4 Lb4]; [assumption|].
    repeat match goal with |- context [if ?b then _ else _] => destruct b end; rewrite ?forallb_app, ?dec_np, ?disp_np, ?hex2_np by assumption; reflexivity.
  - rewrite !forallb_app, hex2_np by assumption. reflexivity.
Qed.
(** *** Different instructions have different texts *)
Lemma word_app n r : forallb good_char n = true -> word (n ++ " "%char :: r) = n.
Proof.
  induction n as [|c n IH]; cbn [app word forallb]; [intros _; reflexivity|]. intros H. apply andb_true_iff in H. destruct H as [H1 H2]. unfold good_char in H1. destruct (ascii_dec c " "); [discriminate|]. rewrite IH by exact H2. reflexivity.
Qed.
Ltac nd := first [reflexivity | assumption | apply nib_byte; assumption].
Ltac ds E H := let H2 := fresh in let H3 := fresh in apply dec_sep in E; [destruct E as (H & H2 & H3); rename H3 into E; try clear H2|nd|nd|nd|nd].
Lemma opt_tail b b' open close c r r' : is_byte b -> is_byte b' -> opt_base [open] [close] b ++ c :: r = opt_base [open] [close] b' ++ c :: r' -> open <> c -> isdig close = false -> hi b = hi b' /\ r = r'.
Proof.
  intros B B' E N D. destruct (nibbles b B) as (H1 & _). destruct (nibbles b' B') as (H1' & _). unfold opt_base in E. destruct (Z.eqb_spec (hi b) 0), (Z.eqb_spec (hi b') 0); cbn [app] in E.
  - injection E as E. split; [congruence|exact E].
  - injection E as E _. congruence.
  - injection E as E _. congruence.
  - injection E as E. rewrite <- !app_assoc in E. cbn [app] in E. apply dec_sep in E; [|nd|nd|nd|nd]. destruct E as (E1 & _ & E2). injection E2 as E2. split; assumption.
Qed.
Lemma body_inj op n t b1 b2 b3 b4 b5 c1 c2 c3 c4 c5 : is_byte op -> lookup op = Some (n, t) -> Forall is_byte [b1; b2; b3; b4; b5] -> Forall is_byte [c1; c2; c3; c4; c5] ->
  body t b1 b2 b3 b4 b5 ++ str " " = body t c1 c2 c3 c4 c5 ++ str " " -> meaning [op; b1; b2; b3; b4; b5] = meaning [op; c1; c2; c3; c4; c5].
Proof.
  intros B0 LK FB FC E. destruct (kinds op n t B0 LK) as (_ & _ & _ & _ & S & C).
  inversion FB as [|? ? B1 FB1]; subst. inversion FB1 as [|? ? B2 FB2]; subst. inversion FB2 as [|? ? B3 FB3]; subst. inversion FB3 as [|? ? B4 FB4]; subst. inversion FB4 as [|? ? B5 _]; subst.
  inversion FC as [|? ? C1 FC1]; subst. inversion FC1 as [|? ? C2 FC2]; subst. inversion FC2 as [|? ? C3 FC3]; subst. inversion FC3 as [|? ? C4 FC4]; subst. inversion FC4 as [|? ? C5 _]; subst. clear FB FB1 FB2 FB3 FB4 FC FC1 FC2 FC3 FC4.
  destruct (nibbles b1 B1) as (Hb1 & Lb1 & Db1 & Eb1 & _). destruct (nibbles b2 B2) as (Hb2 & Lb2 & Db2 & Eb2 & _). destruct (nibbles b4 B4) as (Hb4 & Lb4 & _ & Eb4 & _).
  destruct (nibbles c1 C1) as (Hc1 & Lc1 & Dc1 & Ec1 & _). destruct (nibbles c2 C2) as (Hc2 & Lc2 & Dc2 & Ec2 & _). destruct (nibbles c4 C4) as (Hc4 & Lc4 & _ & Ec4 & _).
  rewrite !orb_false_iff in S. destruct S as [[S _] _]. unfold meaning. rewrite S. rewrite <- Db1, <- Dc1. destruct (op <? 64); [|destruct (op <? 192)].
  - rewrite !andb_true_iff in C. destruct C as [[K H16] H8]. apply Z.eqb_eq in K. apply Bool.eqb_prop in H16, H8. unfold body in E. rewrite K in E. cbn [Z.eqb Pos.eqb] in E. destruct (has t 16).
    + rewrite <- !app_assoc in E. apply hex2_inj in E; [|assumption|assumption]. destruct E as [-> _]. reflexivity.
    + rewrite <- H8. destruct (has t 8).
      * rewrite <- !app_assoc in E. cbn [str list_ascii_of_string app] in E. ds E Q. rewrite Q. reflexivity.
      * rewrite <- !app_assoc in E. cbn [str list_ascii_of_string app] in E. ds E Q1. ds E Q2. rewrite Eb1, Ec1, Q1, Q2. reflexivity.
  - rewrite !orb_true_iff, !andb_true_iff in C. destruct C as [[[[K N1] N2]|[[K N1] N2]]|[[K N1] N2]]; apply Z.eqb_eq in K; apply negb_true_iff in N2; unfold body in E; rewrite K in E; cbn [Z.eqb Pos.eqb] in E.
    + apply negb_true_iff in N1. rewrite N1, N2. rewrite <- !app_assoc in E. cbn [str list_ascii_of_string app] in E. ds E Q1. apply disp_inj in E; try assumption. destruct E as (Q2 & Q3 & E). injection E as E. ds E Q4. ds E Q5.
      rewrite Eb1, Ec1, Eb2, Ec2, Q1, Q2, Q3, Q4, Q5. reflexivity.
    + apply Bool.eqb_prop in N1. rewrite N2, <- N1. rewrite <- !app_assoc in E. cbn [str list_ascii_of_string app] in E. ds E Q1. destruct (has t 32).
      * cbn [app] in E. apply disp_inj in E; try assumption. destruct E as (Q2 & Q3 & E). apply opt_tail in E; try assumption; try reflexivity; [|discriminate]. destruct E as [Q4 _]. rewrite Eb2, Ec2, Q1, Q2, Q3, Q4. reflexivity.
      * rewrite <- !app_assoc in E. cbn [app] in E. ds E Q5. apply disp_inj in E; try assumption. destruct E as (Q2 & Q3 & E). apply opt_tail in E; try assumption; try reflexivity; [|discriminate]. destruct E as [Q4 _].
        rewrite Eb1, Ec1, Eb2, Ec2, Q1, Q2, Q3, Q4, Q5. reflexivity.
    + apply Bool.eqb_prop in N1. rewrite N2, <- N1. rewrite <- !app_assoc in E. apply disp_inj in E; try assumption. destruct E as (Q2 & Q3 & E). destruct (has t 32).
      * cbn [app str list_ascii_of_string] in E. apply opt_tail in E; try assumption; try reflexivity; [|discriminate]. destruct E as [Q4 _]. rewrite Eb2, Ec2, Q2, Q3, Q4. reflexivity.
      * cbn [app str list_ascii_of_string] in E. apply opt_tail in E; try assumption; try reflexivity; [|discriminate]. destruct E as [Q4 E]. apply hex2_inj in E; try assumption. destruct E as [Q5 _]. rewrite Eb2, Ec2, Q2, Q3, Q4, Q5. reflexivity.
  - apply Z.eqb_eq in C. unfold body in E. rewrite C in E. cbn [Z.eqb Pos.eqb] in E. rewrite <- !app_assoc in E. apply disp_inj in E; try assumption. destruct E as (Q2 & Q3 & E). cbn [app str list_ascii_of_string] in E. injection E as E.
    assert (T : forall d e r r', is_byte d -> is_byte e -> dec d ++ opt_base [","%char] [] b2 ++ ")"%char :: r = dec e ++ opt_base [","%char] [] c2 ++ ")"%char :: r' -> d = e /\ hi b2 = hi c2 /\ r = r').
    { intros d e r r' D D' X. unfold opt_base in X. destruct (Z.eqb_spec (hi b2) 0), (Z.eqb_spec (hi c2) 0); cbn [app] in X.
      - ds X Q. split; [exact Q|]. split; [congruence|exact X].
      - apply dec_sep in X; [|nd|nd|nd|nd]. destruct X as (_ & X & _). discriminate.
      - apply dec_sep in X; [|nd|nd|nd|nd]. destruct X as (_ & X & _). discriminate.
      - rewrite <- !app_assoc in X. cbn [app] in X. ds X Q. ds X Q'. split; [exact Q|]. split; assumption. }
    apply T in E; [|destruct (has t 24); nd|destruct (has t 24); nd]. destruct E as (Q1 & Q4 & E). apply (f_equal (@tl ascii)) in E. cbn [tl] in E. apply disp_inj in E; try assumption. destruct E as (Q5 & Q6 & E). injection E as E.
    destruct (has t 24).
    + rewrite <- !app_assoc in E. cbn [app] in E. ds E Q7. ds E Q8. rewrite Eb1, Ec1, Eb2, Ec2, Eb4, Ec4, Q1, Q2, Q3, Q4, Q5, Q6, Q7, Q8. reflexivity.
    + cbn [app] in E. ds E Q8. rewrite Eb2, Ec2, Eb4, Ec4, Q1, Q2, Q3, Q4, Q5, Q6, Q8. reflexivity.
Qed.
Lemma print_inj v w : an_inst v -> an_inst w -> hd 0 v <> 132 -> hd 0 v <> 133 -> print_text v = print_text w -> meaning v = meaning w.
Proof.
  intros [LV FV] [LW FW] N132 N133 E. destruct v as [|op [|b1 [|b2 [|b3 [|b4 [|b5 [|]]]]]]]; try discriminate. destruct w as [|op' [|c1 [|c2 [|c3 [|c4 [|c5 [|]]]]]]]; try discriminate.
  inversion FV as [|? ? B0 FB]; subst. inversion FW as [|? ? B0' FC]; subst. unfold print_text in E.
  destruct (lookup op) as [[n t]|] eqn:L1, (lookup op') as [[n' t']|] eqn:L2.
  - destruct (kinds op n t B0 L1) as (_ & _ & G1 & N1 & _). destruct (kinds op' n' t' B0' L2) as (_ & _ & G2 & N2 & _). pose proof (word_app (str n) (body t b1 b2 b3 b4 b5 ++ str " ") G1) as W.
    change (str n ++ " "%char :: body t b1 b2 b3 b4 b5 ++ str " ") with (str n ++ str " " ++ body t b1 b2 b3 b4 b5 ++ str " ") in W. rewrite E in W. pose proof (word_app (str n') (body t' c1 c2 c3 c4 c5 ++ str " ") G2) as W'. change (str n' ++ " "%char :: body t' c1 c2 c3 c4 c5 ++ str " ") with (str n' ++ str " " ++ body t' c1 c2 c3 c4 c5 ++ str " ") in W'. rewrite W' in W. clear W'.
    assert (op' = op) by congruence. subst op'. assert (n' = n /\ t' = t) as [-> ->] by (split; congruence). apply app_inv_head in E. apply app_inv_head in E. exact (body_inj op n t b1 b2 b3 b4 b5 c1 c2 c3 c4 c5 B0 L1 FB FC E).
  - destruct (kinds op n t B0 L1) as (_ & _ & G1 & N1 & _). destruct (str n) as [|x l]; [cbn [app] in E; discriminate|]. cbn [app str list_ascii_of_string] in E. injection E as -> _. cbn in G1. discriminate.
  - destruct (kinds op' n' t' B0' L2) as (_ & _ & G1 & N1 & _). destruct (str n') as [|x l]; [cbn [app] in E; discriminate|]. cbn [app str list_ascii_of_string] in E. injection E as <- _. cbn in G1. discriminate.
  - cbn [app str list_ascii_of_string] in E. 
    assert (HH : hex2 op ++ ["?"%char; " "%char] = hex2 op' ++ ["?"%char; " "%char]) by (unfold hex2 in *; cbn [app] in *; congruence). apply hex2_inj in HH; [|assumption|assumption]. destruct HH as [-> _].
    pose proof (chk_ok op' B0') as C. unfold chk in C. rewrite L1 in C. cbn [hd] in N132, N133. unfold meaning. destruct (Z.eqb_spec op' 132); [contradiction|]. destruct (Z.eqb_spec op' 133); [contradiction|]. rewrite !orb_false_r in C. rewrite C. reflexivity.
Qed.
Lemma print_same v w : an_inst v -> an_inst w -> meaning v = meaning w -> print_text v = print_text w.
Proof.
  intros [LV FV] [LW FW] E. destruct v as [|op [|b1 [|b2 [|b3 [|b4 [|b5 [|]]]]]]]; try discriminate. destruct w as [|op' [|c1 [|c2 [|c3 [|c4 [|c5 [|]]]]]]]; try discriminate.
  inversion FV as [|? ? B0 FB]; subst. inversion FW as [|? ? B0' FC]; subst. assert (O : op' = op).
  { unfold meaning in E. destruct (negb (s360 op)), (op <? 64), (op <? 192), (negb (s360 op')), (op' <? 64), (op' <? 192); congruence. }
  subst op'. unfold print_text. destruct (lookup op) as [[n t]|] eqn:L1; [|reflexivity]. destruct (kinds op n t B0 L1) as (_ & _ & _ & _ & S & C). rewrite !orb_false_iff in S. destruct S as [[S _] _].
  unfold meaning in E. rewrite S in E. do 2 f_equal. f_equal. unfold body.
  inversion FB as [|? ? B1 _]; subst. inversion FC as [|? ? C1 _]; subst. destruct (nibbles b1 B1) as (_ & _ & Db1 & _). destruct (nibbles c1 C1) as (_ & _ & Dc1 & _).
  destruct (op <? 64); [|destruct (op <? 192)].
  - rewrite !andb_true_iff in C. destruct C as [[K H16] H8]. apply Z.eqb_eq in K. apply Bool.eqb_prop in H16, H8. rewrite K. cbn [Z.eqb Pos.eqb]. rewrite H16, H8. unfold one_reg in *. destruct (Z.eqb_spec op 4) as [->|].
    + injection E as E. cbn [Z.eqb Pos.eqb]. rewrite Db1, Dc1, E. reflexivity.
    + injection E as E. subst c1. reflexivity.
  - rewrite !orb_true_iff, !andb_true_iff in C. destruct C as [[[[K N1] N2]|[[K N1] N2]]|[[K N1] N2]]; apply Z.eqb_eq in K; apply negb_true_iff in N2; rewrite K; cbn [Z.eqb Pos.eqb].
    + apply negb_true_iff in N1. rewrite N1, N2 in E. injection E as -> -> ->. reflexivity.
    + apply Bool.eqb_prop in N1. rewrite N2, <- N1 in E. destruct (has t 32); injection E as E1 -> ->; [rewrite Db1, Dc1, E1|rewrite E1]; reflexivity.
    + apply Bool.eqb_prop in N1. rewrite N2, <- N1 in E. destruct (has t 32); injection E; intros -> ->; [|intros ->]; reflexivity.
  - injection E as -> -> -> -> ->. reflexivity.
Qed.
(** *** The notation *)
Lemma str_app a b : str (a ++ b)%string = str a ++ str b.
Proof. unfold str. induction a as [|c a IH]; cbn; [reflexivity|rewrite IH; reflexivity]. Qed.
Lemma teqb_eq x y : teqb x y = true -> x = y.
Proof. unfold teqb. destruct (list_eq_dec ascii_dec x y); [auto|discriminate]. Qed.
Lemma dec_std n : is_byte n -> str (decimal n) = dec n.
Proof. intros H. pose proof (sweep 256 (fun n => teqb (str (decimal n)) (dec n)) ltac:(vm_compute; reflexivity) n H) as E. cbv beta in E. apply teqb_eq in E. exact E. Qed.
Lemma hex_std n : is_byte n -> str (hexadecimal 2 n) = hex2 n.
Proof. intros H. pose proof (sweep 256 (fun n => teqb (str (hexadecimal 2 n)) (hex2 n)) ltac:(vm_compute; reflexivity) n H) as E. cbv beta in E. apply teqb_eq in E. exact E. Qed.
Lemma addr_std b c : is_byte b -> is_byte c -> str (address b c) = disp b c.
Proof.
  intros B C. unfold address, disp. destruct (nibbles b B) as (_ & L & _ & E & _). assert (M : b mod 16 = lo b) by (rewrite E at 1; rewrite Z.add_comm, Z.mul_comm, Z_mod_plus_full; apply Z.mod_small; exact L). rewrite M. generalize dependent (lo b). intros d L _ _. clear B.
  pose proof (sweep 4096 (fun n => teqb (str (hexadecimal 3 n)) (hex1 (n / 256) ++ hex2 (n mod 256))) ltac:(vm_compute; reflexivity) (d * 256 + c)) as S. cbv beta in S. unfold is_byte in C. assert (R : 0 <= d * 256 + c < Z.of_nat 4096) by (change (Z.of_nat 4096) with 4096; lia). apply S in R. apply teqb_eq in R. rewrite R.
  rewrite (Z.add_comm (d * 256)). rewrite Z_mod_plus_full, Z_div_plus_full by lia. rewrite Z.mod_small, Z.div_small by lia. reflexivity.
Qed.
Lemma based_std o c b : is_byte b -> str (based o c b) = opt_base (str o) (str c) b.
Proof. intros B. unfold based, opt_base. destruct (nibbles b B) as (H & _ & E & _). rewrite <- E. destruct (hi b =? 0); [reflexivity|]. rewrite !str_app, dec_std by (apply nib_byte; exact H). reflexivity. Qed.
Definition chk2 (op : Z) : bool :=
  match lookup op, mnemonic op with
  | Some (n, t), Some n' => String.eqb n n' && negb (Z.land t 7 =? 0) &&
      (let k := Z.land t 7 in
       Bool.eqb (k =? 1) (op <? 64) && Bool.eqb (has t 16 && (k =? 1)) (op =? 10) && Bool.eqb (has t 8 && negb (has t 16) && (k =? 1)) (op =? 4) && Bool.eqb (k =? 2) ((op <? 128) && negb (op <? 64)) &&
       Bool.eqb (k =? 3) (three op || no_r3 op) && Bool.eqb ((k =? 3) && has t 32) (no_r3 op) && negb (three op && no_r3 op) && Bool.eqb (k =? 4) ((op <? 192) && negb (op <? 128) && negb (three op || no_r3 op)) && Bool.eqb ((k =? 4) && has t 32) (no_imm op) &&
       Bool.eqb (k =? 5) (negb (op <? 192)) && Bool.eqb ((k =? 5) && has t 24) (negb (op <? 240)))
  | None, None => true
  | None, Some _ => (op =? 132) || (op =? 133)
  | Some _, None => false
  end.
Lemma chk2_ok op : is_byte op -> chk2 op = true.
Proof. intros H. exact (sweep 256 chk2 ltac:(vm_compute; reflexivity) op H). Qed.
Lemma asm_ok v : an_inst v -> hd 0 v <> 132 -> hd 0 v <> 133 -> print_text v = str (assembler v) ++ str " " \/ print_text v = str (assembler v) ++ str "  ".
Proof.
  intros [LV FV] N1 N2. destruct v as [|op [|b1 [|b2 [|b3 [|b4 [|b5 [|]]]]]]]; try discriminate. cbn [hd] in N1, N2.
  inversion FV as [|? ? B0 FB]; subst. inversion FB as [|? ? B1 FB1]; subst. inversion FB1 as [|? ? B2 FB2]; subst. inversion FB2 as [|? ? B3 FB3]; subst. inversion FB3 as [|? ? B4 FB4]; subst. inversion FB4 as [|? ? B5 _]; subst. clear FV FB FB1 FB2 FB3 FB4 LV.
  pose proof (chk2_ok op B0) as C. unfold chk2 in C. unfold print_text, assembler. destruct (lookup op) as [[n t]|] eqn:LK.
  2: { destruct (mnemonic op); [apply orb_true_iff in C; destruct C as [C|C]; apply Z.eqb_eq in C; contradiction|]. left. rewrite !str_app, hex_std by exact B0. rewrite <- !app_assoc. reflexivity. }
  destruct (mnemonic op) as [n'|]; [|discriminate]. destruct (kinds op n t B0 LK) as (K & _).
  rewrite !andb_true_iff in C. destruct C as [[C1 _] [[[[[[[[[[C2 C3] C4] C5] C6] C7] C8] C9] C10] C11] C12]]. apply String.eqb_eq in C1. subst n'. apply Bool.eqb_prop in C2, C3, C4, C5, C6, C7, C9, C10, C11, C12. apply negb_true_iff in C8.
  rewrite !str_app, <- !app_assoc. cut (body t b1 b2 b3 b4 b5 ++ str " " = str (asm_ops op b1 b2 b3 b4 b5) ++ str " " \/ body t b1 b2 b3 b4 b5 ++ str " " = str (asm_ops op b1 b2 b3 b4 b5) ++ str "  ").
  { intros [->| ->]; [left|right]; reflexivity. }
  clear LK B0 N1 N2.
  destruct (nibbles b1 B1) as (Hb1 & Lb1 & Db1 & Eb1 & _). destruct (nibbles b2 B2) as (Hb2 & Lb2 & Db2 & Eb2 & _). destruct (nibbles b4 B4) as (Hb4 & Lb4 & Db4 & Eb4 & _).
  apply nib_byte in Hb1, Hb2, Hb4.
  assert (M1 : b1 mod 16 = lo b1) by (rewrite Eb1 at 1; rewrite Z.add_comm, Z.mul_comm, Z_mod_plus_full; apply Z.mod_small; exact Lb1). apply nib_byte in Lb1.
  unfold body, asm_ops. rewrite <- Db1, <- Db2, <- Db4, M1.
  destruct K as [K|[K|[K|[K|[K|[]]]]]]; rewrite <- K in *; cbn [Z.eqb Pos.eqb andb] in *; rewrite ?andb_true_r, ?andb_false_r in *.
  - right. rewrite <- C3. destruct (has t 16); [rewrite hex_std, <- app_assoc by assumption; reflexivity|]. cbn [negb] in C4. rewrite andb_true_r in C4. rewrite <- C4. destruct (has t 8); [rewrite dec_std, <- app_assoc by assumption; reflexivity|].
    rewrite <- C2. rewrite !str_app, !dec_std, <- !app_assoc by assumption. reflexivity.
  - right. rewrite <- C3, <- C4, <- C2. symmetry in C5. apply andb_true_iff in C5. destruct C5 as [-> _]. rewrite !str_app, !dec_std, addr_std, <- !app_assoc by assumption. reflexivity.
  - left. rewrite <- C3, <- C4, <- C2. rewrite <- C2 in C5. cbn [negb] in C5. rewrite andb_true_r in C5. rewrite <- C5. destruct (three op).
    + cbn [andb] in C8. rewrite C8 in C7. rewrite C7. rewrite !str_app, !dec_std, addr_std, based_std, <- !app_assoc by assumption. reflexivity.
    + cbn [orb] in C6. rewrite <- C6. rewrite <- C6 in C7. rewrite C7. rewrite !str_app, !dec_std, addr_std, based_std, <- !app_assoc by assumption. reflexivity.
  - left. rewrite <- C3, <- C4, <- C2. rewrite <- C2 in C5. cbn [negb] in C5. rewrite andb_true_r in C5. rewrite <- C5. symmetry in C6. apply orb_false_iff in C6. destruct C6 as [-> ->]. symmetry in C9. rewrite !andb_true_iff in C9. destruct C9 as [[-> _] _]. rewrite <- C10.
    destruct (has t 32); rewrite ?str_app, ?addr_std, ?based_std, ?hex_std, <- ?app_assoc by assumption; reflexivity.
  - left. rewrite <- C3, <- C4, <- C2. rewrite <- C2 in C5. cbn [negb] in C5. rewrite andb_true_r in C5. rewrite <- C5. symmetry in C6. apply orb_false_iff in C6. destruct C6 as [-> ->]. symmetry in C11. apply negb_true_iff in C11. rewrite C11. destruct (has t 24); symmetry in C12; [apply negb_true_iff in C12|apply negb_false_iff in C12]; rewrite C12.
    + rewrite !str_app, !dec_std, !addr_std, based_std, <- !app_assoc by assumption. reflexivity.
    + rewrite !str_app, !dec_std, !addr_std, based_std, <- !app_assoc by assumption. reflexivity.
Qed.
