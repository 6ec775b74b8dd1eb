(** The configuration scanner: proofs. *)
From Verif Require Export Conf.Spec.

Lemma ct f c : ascii c -> ctype f c = Ok (f c).
Proof. unfold ascii, ctype. intros H. replace (c <? 128) with true by lia. reflexivity. Qed.
Lemma rd_at a c b : rd (a ++ c :: b) (length a) = Ok c.
Proof. unfold rd. rewrite nth_error_app2, Nat.sub_diag by lia. reflexivity. Qed.
Lemma skipn_at {A} (a b : list A) : skipn (length a) (a ++ b) = b.
Proof. induction a as [|x a IH]; [reflexivity|exact IH]. Qed.
Lemma blank_ascii c : is_space c = true -> ascii c.
Proof. unfold is_space, ascii. lia. Qed.

Lemma skip_sp sp : forall p c r, blanks sp -> ascii c -> is_space c = false -> skip_from (sp ++ c :: r) p = Ok (p + length sp)%nat.
Proof.
  induction sp as [|x sp IH]; intros p c r B A N; cbn [app skip_from length].
  - rewrite ct by exact A. cbn [bind]. rewrite N, Nat.add_0_r. reflexivity.
  - inversion_clear B as [|? ? B1 B2]. unfold blank in B1. rewrite ct by (apply blank_ascii, B1). cbn [bind]. rewrite B1, IH by assumption. f_equal. lia.
Qed.
Lemma skip_space_at pre sp c r : blanks sp -> ascii c -> is_space c = false -> skip_space (pre ++ sp ++ c :: r) (length pre) = Ok (length (pre ++ sp)).
Proof. intros. unfold skip_space. rewrite skipn_at, skip_sp by assumption. rewrite app_length. reflexivity. Qed.

Lemma word_run w : forall p b c r, Forall word_char w -> (length b + length w < 20)%nat -> ascii c -> is_alnum c = false -> c <> 45 ->
  word_from (w ++ c :: r) p b = Ok ((p + length w)%nat, b ++ map to_upper w).
Proof.
  induction w as [|x w IH]; intros p b c r W L A N N45; cbn [app length map] in *.
  - cbn [word_from]. replace (length b <? 20)%nat with true by (symmetry; apply Nat.ltb_lt; lia). rewrite ct by exact A. cbn [bind]. rewrite N.
    replace (c =? 45) with false by lia. cbn [orb]. rewrite Nat.add_0_r, app_nil_r. reflexivity.
  - inversion_clear W as [|? ? [W1 W2] W3]. cbn [word_from]. replace (length b <? 20)%nat with true by (symmetry; apply Nat.ltb_lt; lia).
    rewrite ct by exact W1. cbn [bind]. replace (is_alnum x || (x =? 45)) with true by (destruct W2 as [-> | ->]; [reflexivity|symmetry; apply orb_true_r]).
    unfold push. replace (length b <? 20)%nat with true by (symmetry; apply Nat.ltb_lt; lia). cbn [bind].
    rewrite IH; try assumption; [|rewrite app_length; cbn; lia]. rewrite <- app_assoc. f_equal. f_equal. lia.
Qed.

(** The end of a value. *)
Definition stop (d : Z) : Prop := ascii d /\ (is_space d = true \/ d = 0).
Lemma stop_true d : stop d -> is_space d || (d =? 10) || (d =? 0) = true.
Proof. intros [_ [->| ->]]; [reflexivity|rewrite orb_true_r; reflexivity]. Qed.

Lemma plain_run v : forall p b d r, Forall plain_char v -> (length b + length v < 1024)%nat -> stop d ->
  string_from (v ++ d :: r) p false (length b) b = Ok ((p + length v)%nat, b ++ map to_upper v).
Proof.
  induction v as [|x v IH]; intros p b d r V L D; cbn [app length map] in *; cbn [string_from];
    (replace (length b <? 1024)%nat with true by (symmetry; apply Nat.ltb_lt; lia)).
  - rewrite andb_false_r. rewrite ct by apply D. cbn [bind negb andb]. rewrite (stop_true d D). unfold close.
    replace (length b <? 1024)%nat with true by (symmetry; apply Nat.ltb_lt; lia). cbn [bind]. rewrite Nat.add_0_r, app_nil_r. reflexivity.
  - inversion_clear V as [|? ? (V1 & V2 & V3) V4]. unfold blank in V3. rewrite andb_false_r. rewrite !ct by exact V1. cbn [bind negb andb].
    replace (is_space x || (x =? 10) || (x =? 0)) with false.
    2:{ destruct (is_space x) eqn:E; [exfalso; apply V3; reflexivity|]. cbn [orb]. unfold is_space in E. lia. }
    unfold push. replace (length b <? 1024)%nat with true by (symmetry; apply Nat.ltb_lt; lia). cbn [bind].
    replace (if is_alpha x then to_upper x else x) with (to_upper x).
    2:{ unfold is_alpha, to_upper. destruct (is_lower x); cbn [orb]; [reflexivity|]. destruct (is_upper x); reflexivity. }
    replace (S (length b)) with (length (b ++ [to_upper x])) by (rewrite app_length; cbn; lia).
    rewrite IH; try assumption; [|rewrite app_length; cbn; lia]. rewrite <- app_assoc. f_equal. f_equal. lia.
Qed.

Lemma quoted_run v : forall p b d r, Forall (fun c => c <> 34) v -> (length b + length v < 1024)%nat -> stop d ->
  string_from (v ++ 34 :: d :: r) p true (length b) b = Ok ((p + length v + 1)%nat, b ++ v).
Proof.
  induction v as [|x v IH]; intros p b d r V L D; cbn [app length map] in *; cbn [string_from];
    (replace (length b <? 1024)%nat with true by (symmetry; apply Nat.ltb_lt; lia)).
  - change ((34 =? 34) && true) with true. cbn iota. replace (d =? 34) with false by (destruct D as [_ D]; unfold is_space in D; lia).
    rewrite ct by apply D. cbn [bind]. rewrite (stop_true d D). unfold close.
    replace (length b <? 1024)%nat with true by (symmetry; apply Nat.ltb_lt; lia). cbn [bind]. rewrite app_nil_r. do 2 f_equal. lia.
  - inversion_clear V as [|? ? V1 V2]. replace (x =? 34) with false by lia. cbn [andb negb bind]. 
    unfold push. replace (length b <? 1024)%nat with true by (symmetry; apply Nat.ltb_lt; lia). cbn [bind].
    replace (S (length b)) with (length (b ++ [x])) by (rewrite app_length; cbn; lia).
    rewrite IH; try assumption; [|rewrite app_length; cbn; lia]. rewrite <- app_assoc. f_equal. f_equal. lia.
Qed.

Lemma word_not_end c : word_char c -> at_end c = false /\ is_space c = false /\ ascii c.
Proof. intros [A H]. unfold at_end, is_space, is_alnum, is_alpha, is_lower, is_upper, is_digit in *. unfold ascii in *. lia. Qed.
Lemma stop_word d : stop d -> is_alnum d = false /\ d <> 45 /\ d <> 61 /\ ascii d.
Proof. intros [A H]. unfold is_space, is_alnum, is_alpha, is_lower, is_upper, is_digit in *. unfold ascii in *. lia. Qed.

(** get_string at a value. *)
Lemma string_plain pre v d r o : Forall plain_char v -> starts (fun c => c <> 34 /\ c <> 35) v -> (length v < 1024)%nat -> stop d ->
  get_string (pre ++ v ++ d :: r) (length pre) o
  = Ok (length (pre ++ v), mkOpt (o_opt o) (o_flags o) (o_model o) (o_dash o) (o_slash o) (o_addr o) (map to_upper v), true).
Proof.
  intros V S L D. destruct v as [|c v]; [destruct S|]. cbn [starts] in S. pose proof V as V0. inversion_clear V0 as [|? ? (V1 & V2 & V3) V4].
  assert (NS : is_space c = false) by (unfold blank in V3; destruct (is_space c); [exfalso; apply V3; reflexivity|reflexivity]).
  unfold get_string. pose proof (skip_space_at pre [] c (v ++ d :: r) (Forall_nil _) V1 NS) as SK. rewrite app_nil_r in SK. cbn [app] in *. rewrite SK. cbn [bind].
  rewrite rd_at. cbn [bind]. replace (at_end c) with false by (unfold at_end; unfold is_space in NS; lia). replace (c =? 34) with false by lia.
  rewrite skipn_at. change (string_from (c :: v ++ d :: r) (length pre) false 0 []) with (string_from ((c :: v) ++ d :: r) (length pre) false (length (@nil Z)) []).
  rewrite plain_run by (try assumption; cbn [length] in *; lia). cbn [bind fst snd app]. rewrite app_length. reflexivity.
Qed.
Lemma string_quoted pre v d r o : Forall (fun c => c <> 34) v -> (length v < 1024)%nat -> stop d ->
  get_string (pre ++ 34 :: v ++ 34 :: d :: r) (length pre) o
  = Ok (length (pre ++ 34 :: v ++ [34]), mkOpt (o_opt o) (o_flags o) (o_model o) (o_dash o) (o_slash o) (o_addr o) v, true).
Proof.
  intros V L D. unfold get_string. pose proof (skip_space_at pre [] 34 (v ++ 34 :: d :: r) (Forall_nil _)) as SK. rewrite app_nil_r in SK. cbn [app] in SK.
  rewrite SK by (unfold ascii; try lia; reflexivity). cbn [bind]. rewrite rd_at. cbn [bind]. change (at_end 34) with false. change (34 =? 34) with true. cbn iota.
  replace (pre ++ 34 :: v ++ 34 :: d :: r) with ((pre ++ [34]) ++ v ++ 34 :: d :: r) by (rewrite <- app_assoc; reflexivity).
  replace (S (length pre)) with (length (pre ++ [34])) by (rewrite app_length; cbn; lia). rewrite skipn_at.
  change 0%nat with (length (@nil Z)) at 1. rewrite quoted_run by (try assumption; cbn; lia). cbn [bind fst snd app].
  do 3 f_equal. rewrite !app_length. cbn [length]. rewrite app_length. cbn [length]. lia.
Qed.

(** One option. *)
Lemma option_at pre sp i d r o : blanks sp -> item_ok i -> stop d ->
  get_option (pre ++ sp ++ text i ++ d :: r) (length pre) o = Ok (length (pre ++ sp ++ text i), meaning o i, true).
Proof.
  intros B I D.
  assert (X : forall n c q, name_ok n -> ascii c -> is_alnum c = false -> c <> 45 ->
    get_option (pre ++ sp ++ n ++ c :: q) (length pre) o
    = if c =? 61 then let* g := get_string (pre ++ sp ++ n ++ c :: q) (S (length (pre ++ sp ++ n))) (mkOpt (map to_upper n) 0 (o_model o) (o_dash o) (o_slash o) (o_addr o) []) in
        let '(p, o, ok) := g in if ok : bool then Ok (p, mkOpt (o_opt o) 1 (o_model o) (o_dash o) (o_slash o) (o_addr o) (o_string o), true) else Ok (p, o, false)
      else Ok (length (pre ++ sp ++ n), mkOpt (map to_upper n) 0 (o_model o) (o_dash o) (o_slash o) (o_addr o) [], true)).
  { intros n c q [N L] A AL C45. destruct n as [|x n]; [cbn in L; lia|]. pose proof N as N0. inversion_clear N0 as [|? ? N1 N2].
    destruct (word_not_end x N1) as (E1 & E2 & E3). unfold get_option. cbn [app]. rewrite skip_space_at by assumption. cbn [bind].
    replace (pre ++ sp ++ x :: n ++ c :: q) with ((pre ++ sp) ++ x :: n ++ c :: q) by (rewrite app_assoc; reflexivity).
    rewrite rd_at. cbn [bind]. rewrite E1. rewrite skipn_at. change (x :: n ++ c :: q) with ((x :: n) ++ c :: q).
    rewrite word_run by (try assumption; cbn [length] in *; lia). cbn [bind fst snd app]. unfold close.
    rewrite map_length. replace (length (x :: n) <? 20)%nat with true by (symmetry; apply Nat.ltb_lt; lia). cbn [bind o_model o_dash o_slash o_addr].
    replace (length (pre ++ sp) + length (x :: n))%nat with (length ((pre ++ sp) ++ x :: n)) by (rewrite app_length; reflexivity).
    change ((pre ++ sp) ++ x :: n ++ c :: q) with ((pre ++ sp) ++ (x :: n) ++ c :: q). rewrite (app_assoc (pre ++ sp)), rd_at. cbn [bind].
    rewrite <- !app_assoc. cbn [app]. reflexivity. }
  destruct i as [n|n v|n v]; cbn [text item_ok meaning] in *.
  - destruct (stop_word d D) as (D1 & D2 & D3 & D4). rewrite X by assumption. replace (d =? 61) with false by lia. reflexivity.
  - destruct I as (N & V & SV & L). rewrite <- app_assoc. cbn [app]. rewrite X by (try assumption; unfold ascii; try lia; reflexivity). change (61 =? 61) with true. cbn iota.
    replace (pre ++ sp ++ n ++ 61 :: v ++ d :: r) with ((pre ++ sp ++ n ++ [61]) ++ v ++ d :: r) by (rewrite <- !app_assoc; reflexivity).
    replace (S (length (pre ++ sp ++ n))) with (length (pre ++ sp ++ n ++ [61])) by (rewrite !app_length; cbn; lia).
    rewrite string_plain by assumption. cbn [bind o_opt o_model o_dash o_slash o_addr o_string]. rewrite <- !app_assoc. reflexivity.
  - destruct I as (N & V & L). rewrite <- app_assoc. cbn [app]. rewrite <- app_assoc. cbn [app]. rewrite X by (try assumption; unfold ascii; try lia; reflexivity). change (61 =? 61) with true. cbn iota.
    replace (pre ++ sp ++ n ++ 61 :: 34 :: v ++ 34 :: d :: r) with ((pre ++ sp ++ n ++ [61]) ++ 34 :: v ++ 34 :: d :: r) by (rewrite <- !app_assoc; reflexivity).
    replace (S (length (pre ++ sp ++ n))) with (length (pre ++ sp ++ n ++ [61])) by (rewrite !app_length; cbn; lia).
    rewrite string_quoted by assumption. cbn [bind o_opt o_model o_dash o_slash o_addr o_string]. rewrite <- !app_assoc. reflexivity.
Qed.

Lemma option_end pre sp e r o : blanks sp -> e = 0 \/ e = 35 ->
  get_option (pre ++ sp ++ e :: r) (length pre) o = Ok (length (pre ++ sp), mkOpt [] 0 (o_model o) (o_dash o) (o_slash o) (o_addr o) [], false).
Proof.
  intros B E. unfold get_option. rewrite skip_space_at by (try assumption; destruct E as [-> | ->]; unfold ascii; try lia; reflexivity). cbn [bind].
  rewrite app_assoc, rd_at. cbn [bind]. replace (at_end e) with true by (destruct E as [-> | ->]; reflexivity). reflexivity.
Qed.

Lemma meaning_again o i j : meaning (meaning o i) j = meaning o j.
Proof. destruct i, j; reflexivity. Qed.

Lemma options_line items : forall pre t e r o fuel, items_ok items -> end_ok t e -> (length items < fuel)%nat ->
  options fuel (pre ++ line items ++ t ++ e :: r) (length pre) o = Ok (length (pre ++ line items ++ t), map (fun x => meaning o (snd x)) items).
Proof.
  induction items as [|[sp i] items IH]; intros pre t e r o fuel OK [T E] F; (destruct fuel as [|f]; [cbn in F; lia|]); cbn [options].
  - cbn [line map concat app]. rewrite option_end by (try assumption; tauto). reflexivity.
  - inversion_clear OK as [|? ? (B & NE & I) OK2]. cbn [fst snd] in *.
    assert (Y : exists d q, line items ++ t ++ e :: r = d :: q /\ stop d).
    { destruct items as [|[sp2 i2] items2].
      - cbn [line map concat app]. destruct t as [|d t]; cbn [app]; [exists e, r; split; [reflexivity|]; destruct E as [->|[_ E]]; [|congruence]; split; [unfold ascii; lia|right; reflexivity]|].
        exists d. eexists. split; [reflexivity|]. inversion_clear T as [|? ? T1 T2]. split; [apply blank_ascii, T1|left; exact T1].
      - inversion_clear OK2 as [|? ? (B2 & NE2 & I2) _]. cbn [fst] in *. destruct sp2 as [|d sp2]; [congruence|].
        cbn [line map concat fst app]. exists d. eexists. split; [reflexivity|]. inversion_clear B2 as [|? ? T1 T2]. split; [apply blank_ascii, T1|left; exact T1]. }
    destruct Y as (d & q & Y & D).
    replace (pre ++ line ((sp, i) :: items) ++ t ++ e :: r) with (pre ++ sp ++ text i ++ line items ++ t ++ e :: r) by (unfold line; cbn [map concat fst snd]; rewrite <- !app_assoc; reflexivity).
    rewrite Y, option_at by assumption. cbn [bind]. rewrite <- Y.
    replace (pre ++ sp ++ text i ++ line items ++ t ++ e :: r) with ((pre ++ sp ++ text i) ++ line items ++ t ++ e :: r) by (rewrite <- !app_assoc; reflexivity).
    rewrite IH; [|exact OK2|split; assumption|cbn in F; lia]. cbn [bind fst snd map]. f_equal. f_equal.
    + unfold line. cbn [map concat fst snd]. rewrite <- !app_assoc. reflexivity.
    + f_equal. apply map_ext. intros [a b]. apply meaning_again.
Qed.

(** *** Numbers *)
Lemma dec_fold l v : fold_left (fun v c => v * 10 + (c - 48)) l v = v * 10 ^ Z.of_nat (length l) + dec_value l.
Proof.
  unfold dec_value. revert v. induction l as [|c l IH]; intros v; cbn [fold_left length]; [lia|]. rewrite (IH (v * 10 + (c - 48))), (IH (0 * 10 + (c - 48))).
  rewrite Nat2Z.inj_succ, Z.pow_succ_r by lia. ring.
Qed.
Lemma integer_run l : forall v, digits l -> 0 <= v -> fold_left (fun v c => v * 10 + (c - 48)) l v <= 2147483647 ->
  integer_from l v = Ok (fold_left (fun v c => v * 10 + (c - 48)) l v, true).
Proof.
  induction l as [|c l IH]; intros v D V H; cbn [integer_from fold_left]; [reflexivity|]. inversion_clear D as [|? ? D1 D2].
  assert (DR : 48 <= c <= 57) by (unfold is_digit in D1; lia). rewrite ct by (unfold ascii; lia). cbn [bind]. rewrite D1. cbn [fold_left] in H.
  assert (M : v * 10 + (c - 48) <= fold_left (fun v c => v * 10 + (c - 48)) l (v * 10 + (c - 48))).
  { rewrite dec_fold. assert (0 <= dec_value l).
    { clear - D2. unfold dec_value. assert (X : forall v, 0 <= v -> 0 <= fold_left (fun v c => v * 10 + (c - 48)) l v); [|apply X; lia].
      induction l as [|c l IH]; intros v V; cbn [fold_left]; [exact V|]. inversion_clear D2 as [|? ? A B]. apply IH; [exact B|]. unfold is_digit in A. lia. }
    assert (1 <= 10 ^ Z.of_nat (length l)) by (apply Z.lt_pred_le; apply Z.pow_pos_nonneg; lia). nia. }
  unfold int_ok. replace ((v * 10 <=? 2147483647) && (-2147483648 <=? v * 10)) with true by lia. cbn [bind].
  replace ((v * 10 + (c - 48) <=? 2147483647) && (-2147483648 <=? v * 10 + (c - 48))) with true by lia. cbn [bind]. apply IH; [exact D2|lia|exact H].
Qed.
Lemma number_run l : forall v, digits l -> 0 <= v -> fold_left (fun v c => v * 10 + (c - 48)) l v <= 2147483647 ->
  number l v = Ok (fold_left (fun v c => v * 10 + (c - 48)) l v).
Proof.
  intros v D V H. pose proof (integer_run l v D V H) as X. revert v D V H X. induction l as [|c l IH]; intros v D V H X; [reflexivity|]. inversion_clear D as [|? ? D1 D2].
  cbn [number integer_from fold_left] in *. assert (DR : 48 <= c <= 57) by (unfold is_digit in D1; lia). rewrite ct in X by (unfold ascii; lia). cbn [bind] in X. rewrite D1 in X |- *.
  destruct (int_ok (v * 10)) as [x| |] eqn:E1; cbn [bind] in X |- *; try discriminate. destruct (int_ok (x + (c - 48))) as [y| |] eqn:E2; cbn [bind] in X |- *; try discriminate.
  unfold int_ok in E1, E2. destruct (_ && _) in E1; [|discriminate]. destruct (_ && _) in E2; [|discriminate]. injection E1 as <-. injection E2 as <-. apply IH; try assumption. lia.
Qed.

(** Hexadecimal addresses. *)
Lemma xdigit_facts c : is_xdigit c = true -> ascii c /\ is_space c = false /\ at_end c = false /\ 0 <= hex_digit c < 16
  /\ (if is_alpha (to_upper c) then to_upper c - 65 + 10 else to_upper c - 48) = hex_digit c.
Proof.
  intros H. assert (R : 0 <= c < 256) by (unfold is_xdigit, is_digit in H; lia).
  pose proof (sweep 256 (fun c => negb (is_xdigit c) || ((c <? 128) && negb (is_space c) && negb (at_end c) && (0 <=? hex_digit c) && (hex_digit c <? 16)
    && ((if is_alpha (to_upper c) then to_upper c - 65 + 10 else to_upper c - 48) =? hex_digit c))) ltac:(vm_compute; reflexivity) c R) as S. cbn beta in S. rewrite H in S. cbn [negb orb] in S.
  unfold ascii. destruct (is_space c), (at_end c); cbn [negb andb] in S; rewrite ?andb_false_r in S; cbn [andb] in S; try discriminate; repeat split; lia.
Qed.
Lemma hex_run l : forall p b c r, xdigits l -> (length b + length l <= 20)%nat -> ascii c -> is_xdigit c = false ->
  hex_from (l ++ c :: r) p b = Ok ((p + length l)%nat, b ++ map to_upper l).
Proof.
  induction l as [|x l IH]; intros p b c r X L A N; cbn [app hex_from length map] in *.
  - rewrite ct by exact A. cbn [bind]. rewrite N, Nat.add_0_r, app_nil_r. reflexivity.
  - inversion_clear X as [|? ? X1 X2]. destruct (xdigit_facts x X1) as (F1 & _). rewrite ct by exact F1. cbn [bind]. rewrite X1. unfold push.
    replace (length b <? 20)%nat with true by (symmetry; apply Nat.ltb_lt; lia). cbn [bind]. rewrite IH; try assumption; [|rewrite app_length; cbn; lia].
    rewrite <- app_assoc. do 2 f_equal. lia.
Qed.
Lemma hex_mono l : forall v, xdigits l -> 0 <= v -> v <= fold_left (fun v c => v * 16 + hex_digit c) l v.
Proof.
  induction l as [|c l IH]; intros v X V; cbn [fold_left]; [lia|]. inversion_clear X as [|? ? X1 X2]. destruct (xdigit_facts c X1) as (_ & _ & _ & F & _).
  pose proof (IH (v * 16 + hex_digit c) X2 ltac:(lia)). lia.
Qed.
Lemma hex_val l : forall v, xdigits l -> 0 <= v -> fold_left (fun v c => v * 16 + hex_digit c) l v <= 2147483647 ->
  hex_value (map to_upper l) v = Ok (fold_left (fun v c => v * 16 + hex_digit c) l v).
Proof.
  induction l as [|c l IH]; intros v X V H; cbn [map hex_value fold_left]; [reflexivity|]. cbn [fold_left] in H. inversion_clear X as [|? ? X1 X2].
  destruct (xdigit_facts c X1) as (_ & _ & _ & F & G). pose proof (hex_mono l (v * 16 + hex_digit c) X2 ltac:(lia)) as M. unfold int_ok.
  replace ((v * 16 <=? 2147483647) && (-2147483648 <=? v * 16)) with true by lia. cbn [bind]. rewrite G.
  replace ((v * 16 + hex_digit c <=? 2147483647) && (-2147483648 <=? v * 16 + hex_digit c)) with true by lia. cbn [bind]. apply IH; [exact X2|lia|exact H].
Qed.
Lemma addr_at pre sp l c r o : blanks sp -> xdigits l -> (0 < length l < 20)%nat -> hex_number l <= 2147483647 -> ascii c -> is_xdigit c = false ->
  get_addr (pre ++ sp ++ l ++ c :: r) (length pre) o
  = Ok (length (pre ++ sp ++ l), mkOpt (o_opt o) (o_flags o) (o_model o) (o_dash o) (o_slash o) (hex_number l mod 65536) (o_string o), true).
Proof.
  intros B X L H A N. destruct l as [|x l]; [cbn in L; lia|]. pose proof X as X0. inversion_clear X0 as [|? ? X1 X2]. destruct (xdigit_facts x X1) as (F1 & F2 & F3 & _).
  unfold get_addr. cbn [app]. rewrite skip_space_at by assumption. cbn [bind].
  replace (pre ++ sp ++ x :: l ++ c :: r) with ((pre ++ sp) ++ x :: l ++ c :: r) by (rewrite app_assoc; reflexivity).
  rewrite rd_at. cbn [bind]. rewrite F3. rewrite skipn_at. change (x :: l ++ c :: r) with ((x :: l) ++ c :: r).
  rewrite hex_run by (try assumption; cbn [length] in *; lia). cbn [bind fst snd app]. unfold close. rewrite map_length.
  replace (length (x :: l) <? 20)%nat with true by (symmetry; apply Nat.ltb_lt; lia). cbn [bind].
  change (map to_upper (x :: l)) with (to_upper x :: map to_upper l) at 1. cbn iota. 
  rewrite hex_val by (try assumption; try lia; exact H). cbn [bind]. unfold hex_number. rewrite (app_assoc pre). rewrite (app_length (pre ++ sp)). reflexivity.
Qed.

(** *** Safety of get_option *)
(** Splitting the rest of the line at the place reached. *)
Lemma skip_tame l : forall p e r, Forall ascii l -> e = 0 -> exists a b, l = a ++ b /\ skip_from (l ++ e :: r) p = Ok (p + length a)%nat /\ (forall c q, b = c :: q -> is_space c = false).
Proof.
  induction l as [|c l IH]; intros p e r F E; cbn [app skip_from].
  - subst e. exists [], []. split; [reflexivity|]. split; [cbn; do 2 f_equal; lia|discriminate].
  - inversion_clear F as [|? ? F1 F2]. rewrite ct by exact F1. cbn [bind]. destruct (is_space c) eqn:SC.
    + destruct (IH (S p) e r F2 E) as (a & b & -> & Q & B). exists (c :: a), b. split; [reflexivity|]. split; [rewrite Q; cbn [length]; f_equal; lia|exact B].
    + exists [], (c :: l). split; [reflexivity|]. split; [cbn; f_equal; lia|]. intros x q X. injection X as -> _. exact SC.
Qed.
Lemma word_tame l : forall p b w0 r, Forall ascii l -> Forall word_char w0 -> length b = length w0 ->
  (forall w c, w0 ++ l = w ++ c -> Forall word_char w -> (length w < 20)%nat) ->
  exists a c b', l = a ++ c /\ word_from (l ++ 0 :: r) p b = Ok ((p + length a)%nat, b') /\ (length b' < 20)%nat
  /\ (forall x q, l = x :: q -> is_alnum x || (x =? 45) = true -> a <> []).
Proof.
  induction l as [|x l IH]; intros p b w0 r F W LB SH; cbn [app word_from].
  - assert (LW : (length w0 < 20)%nat) by (apply (SH w0 []); [reflexivity|exact W]).
    replace (length b <? 20)%nat with true by (symmetry; apply Nat.ltb_lt; lia). change (ctype is_alnum 0) with (Ok false). cbn [bind orb].
    exists [], [], b. rewrite Nat.add_0_r. repeat split; [lia|discriminate].
  - assert (LW : (length w0 < 20)%nat) by (apply (SH w0 (x :: l)); [reflexivity|exact W]). inversion_clear F as [|? ? F1 F2].
    replace (length b <? 20)%nat with true by (symmetry; apply Nat.ltb_lt; lia). rewrite ct by exact F1. cbn [bind]. destruct (is_alnum x || (x =? 45)) eqn:E.
    + unfold push. replace (length b <? 20)%nat with true by (symmetry; apply Nat.ltb_lt; lia). cbn [bind].
      destruct (IH (S p) (b ++ [to_upper x]) (w0 ++ [x]) r F2) as (a & c & b' & -> & Q & LB' & _).
      * apply Forall_app. split; [exact W|]. constructor; [|constructor]. split; [exact F1|]. apply orb_prop in E. destruct E as [E|E]; [left; exact E|right; lia].
      * rewrite !app_length, LB. reflexivity.
      * intros w c Q. apply (SH w c). rewrite <- Q, <- app_assoc. reflexivity.
      * exists (x :: a), c, b'. split; [reflexivity|]. split; [rewrite Q; cbn [length]; do 2 f_equal; lia|split; [exact LB'|discriminate]].
    + exists [], (x :: l), b. rewrite Nat.add_0_r. repeat split; [lia|]. intros y q X. injection X as -> _. rewrite E. discriminate.
Qed.
Lemma string_tame l : forall p b r, Forall ascii l -> (length b + length l < 1024)%nat ->
  exists a c b', l = a ++ c /\ string_from (l ++ 0 :: r) p false (length b) b = Ok ((p + length a)%nat, b').
Proof.
  induction l as [|x l IH]; intros p b r F L; cbn [app string_from]; (replace (length b <? 1024)%nat with true by (symmetry; apply Nat.ltb_lt; lia)); rewrite andb_false_r.
  - change (ctype is_space 0) with (Ok false). cbn [bind negb andb orb Z.eqb]. unfold close. replace (length b <? 1024)%nat with true by (symmetry; apply Nat.ltb_lt; lia). cbn [bind].
    exists [], [], b. rewrite Nat.add_0_r. split; reflexivity.
  - cbn [length] in L. inversion_clear F as [|? ? F1 F2]. rewrite !ct by exact F1. cbn [bind negb andb]. destruct (is_space x || (x =? 10) || (x =? 0)).
    + unfold close. replace (length b <? 1024)%nat with true by (symmetry; apply Nat.ltb_lt; lia). cbn [bind]. exists [], (x :: l), b. rewrite Nat.add_0_r. split; reflexivity.
    + unfold push. replace (length b <? 1024)%nat with true by (symmetry; apply Nat.ltb_lt; lia). cbn [bind].
      match goal with |- context [string_from _ _ _ _ (b ++ [?y])] => destruct (IH (S p) (b ++ [y]) r F2) as (a & c & b' & -> & Q); [rewrite app_length; cbn; lia|];
        replace (S (length b)) with (length (b ++ [y])) by (rewrite app_length; cbn; lia) end.
      exists (x :: a), c, b'. split; [reflexivity|]. rewrite Q. cbn [length]. do 2 f_equal. lia.
Qed.

Lemma tame_parts l : tame l -> Forall ascii l.
Proof. intros (H & _). eapply Forall_impl; [|exact H]. intros c (A & _). exact A. Qed.
Lemma tame_tail a c : tame (a ++ c) -> tame c.
Proof.
  intros (H & L & W). apply Forall_app in H. rewrite app_length in L. split; [tauto|]. split; [lia|]. intros x w y E. apply (W (a ++ x) w y). rewrite E, <- app_assoc. reflexivity.
Qed.
Lemma skip_space_tame pre l r : tame l -> exists a c, l = a ++ c /\ skip_space (pre ++ l ++ 0 :: r) (length pre) = Ok (length (pre ++ a)) /\ (forall x q, c = x :: q -> is_space x = false).
Proof.
  intros T. unfold skip_space. rewrite skipn_at. destruct (skip_tame l (length pre) 0 r (tame_parts l T) eq_refl) as (a & c & E & Q & B).
  exists a, c. split; [exact E|]. split; [rewrite Q, app_length; reflexivity|exact B].
Qed.
Lemma get_string_tame pre l r o : tame l -> exists a c o' ok, l = a ++ c /\ get_string (pre ++ l ++ 0 :: r) (length pre) o = Ok (length (pre ++ a), o', ok).
Proof.
  intros T. unfold get_string. destruct (skip_space_tame pre l r T) as (a & c & -> & Q & NSP). rewrite Q. cbn [bind].
  replace (pre ++ (a ++ c) ++ 0 :: r) with ((pre ++ a) ++ c ++ 0 :: r) by (rewrite <- !app_assoc; reflexivity).
  pose proof (tame_tail a c T) as TC. destruct c as [|x c].
  - cbn [app]. rewrite rd_at. cbn [bind]. change (at_end 0) with true. cbn iota. exists a, []. eexists. eexists. split; reflexivity.
  - cbn [app]. rewrite rd_at. cbn [bind]. destruct (at_end x); [exists a, (x :: c); eexists; eexists; split; reflexivity|].
    replace (x =? 34) with false by (destruct TC as (TC & _); inversion_clear TC as [|? ? (_ & TX & _) _]; lia).
    rewrite skipn_at. change (x :: c ++ 0 :: r) with ((x :: c) ++ 0 :: r). change 0%nat with (length (@nil Z)).
    destruct (string_tame (x :: c) (length (pre ++ a)) [] r (tame_parts _ TC)) as (a2 & c2 & b' & E & S); [destruct TC as (_ & L & _); cbn [length] in *; lia|].
    rewrite S. cbn [bind fst snd]. exists (a ++ a2), c2. rewrite E. eexists. eexists. split; [rewrite app_assoc; reflexivity|].
    rewrite !app_length, Nat.add_assoc. reflexivity.
Qed.
Lemma get_option_tame pre l r o : tame l -> exists a c o' ok, l = a ++ c /\ get_option (pre ++ l ++ 0 :: r) (length pre) o = Ok (length (pre ++ a), o', ok)
  /\ (Forall start_char l -> ok = true -> a <> []).
Proof.
  intros T. unfold get_option. destruct (skip_space_tame pre l r T) as (a & c & -> & Q & NSP). rewrite Q. cbn [bind].
  replace (pre ++ (a ++ c) ++ 0 :: r) with ((pre ++ a) ++ c ++ 0 :: r) by (rewrite <- !app_assoc; reflexivity).
  pose proof (tame_tail a c T) as TC.
  assert (RD : forall q k, exists x, rd (q ++ k ++ 0 :: r) (length q) = Ok x /\ (x = 0 \/ exists k', k = x :: k')).
  { intros q [|y k]; cbn [app]; rewrite rd_at; eexists; (split; [reflexivity|]); [left; reflexivity|]. right. eexists. reflexivity. }
  destruct (RD (pre ++ a) c) as (x & R & RX). rewrite R. cbn [bind].
  destruct (at_end x) eqn:AE; [exists a, c; eexists; eexists; split; [reflexivity|split; [reflexivity|discriminate]]|].
  destruct RX as [->|[cx ->]]; [discriminate AE|]. pose proof (NSP x cx eq_refl) as NS. remember (x :: cx) as c eqn:EC.
  rewrite skipn_at. destruct (word_tame c (length (pre ++ a)) [] [] r (tame_parts _ TC) (Forall_nil _) eq_refl) as (a2 & c2 & b' & CE & W & LB & PW).
  { intros w y E. apply (proj2 (proj2 TC) [] w y). exact E. }
  specialize (PW x cx EC). subst c. rewrite CE in *. rewrite W. cbn [bind fst snd]. unfold close. replace (length b' <? 20)%nat with true by (symmetry; apply Nat.ltb_lt; lia). cbn [bind].
  replace (length (pre ++ a) + length a2)%nat with (length ((pre ++ a) ++ a2)) by (rewrite (app_length (pre ++ a)); reflexivity).
  replace ((pre ++ a) ++ (a2 ++ c2) ++ 0 :: r) with (((pre ++ a) ++ a2) ++ c2 ++ 0 :: r) by (rewrite <- !app_assoc; reflexivity).
  destruct (RD ((pre ++ a) ++ a2) c2) as (y & R2 & Y). rewrite R2. cbn [bind]. destruct (y =? 61) eqn:EY.
  - destruct Y as [Y|(k' & ->)]; [lia|].
    replace (((pre ++ a) ++ a2) ++ (y :: k') ++ 0 :: r) with ((((pre ++ a) ++ a2) ++ [y]) ++ k' ++ 0 :: r) by (rewrite <- !app_assoc; reflexivity).
    replace (S (length ((pre ++ a) ++ a2))) with (length (((pre ++ a) ++ a2) ++ [y])) by (rewrite (app_length _ [y]); cbn; lia).
    assert (TK : tame k') by (apply (tame_tail (a2 ++ [y])); rewrite <- app_assoc; exact TC).
    match goal with |- context [get_string _ _ ?o2] => destruct (get_string_tame (((pre ++ a) ++ a2) ++ [y]) k' r o2 TK) as (a3 & c3 & o3 & ok & -> & G) end.
    rewrite G. cbn [bind]. exists (a ++ a2 ++ y :: a3), c3. destruct ok; eexists; eexists; (split; [rewrite <- !app_assoc; reflexivity|]); (split; [do 3 f_equal; rewrite !app_length; cbn [length]; lia|]); intros _ _ X; destruct a, a2; discriminate X.
  - exists (a ++ a2), c2. eexists. eexists. split; [rewrite <- !app_assoc; reflexivity|]. split; [rewrite <- app_assoc; reflexivity|]. intros SC _ X. apply app_eq_nil in X. destruct X as [-> ->]. cbn [app] in *.
    subst c2. rewrite !app_nil_r in R2. cbn [app] in R2. rewrite rd_at in R2. injection R2 as <-. inversion_clear SC as [|? ? SX _]. destruct SX as [[_ SX]|[SX|[SX|SX]]]; try (unfold at_end, blank in *; congruence || lia).
    + apply PW; [|reflexivity]. destruct SX as [-> | ->]; [reflexivity|apply orb_true_r].
Qed.
Lemma options_tame fuel : forall pre l r o, tame l -> noub (options fuel (pre ++ l ++ 0 :: r) (length pre) o).
Proof.
  induction fuel as [|f IH]; intros pre l r o T; cbn [options]; [exact I|]. destruct (get_option_tame pre l r o T) as (a & c & o' & ok & -> & G & _). rewrite G. cbn [bind].
  destruct ok; [|exact I]. replace (pre ++ (a ++ c) ++ 0 :: r) with ((pre ++ a) ++ c ++ 0 :: r) by (rewrite <- !app_assoc; reflexivity).
  pose proof (IH (pre ++ a) c r o' (tame_tail a c T)) as N. destruct (options f _ _ o') as [x| |]; cbn in *; tauto.
Qed.

(** *** get_model *)
Lemma alnum_facts c : is_alnum c = true -> ascii c /\ is_space c = false /\ at_end c = false /\ c <> 45 /\ c <> 47.
Proof. unfold is_alnum, is_alpha, is_lower, is_upper, is_digit, ascii, is_space, at_end. lia. Qed.
Lemma digits_alnum l : digits l -> Forall (fun x => is_alnum x = true) l.
Proof. intros D. eapply Forall_impl; [|exact D]. intros c E. cbn beta in E. unfold is_alnum. rewrite E. apply orb_true_r. Qed.
Lemma digits_upper l : digits l -> map to_upper l = l.
Proof.
  induction l as [|c l IH]; intros D; [reflexivity|]. inversion_clear D as [|? ? D1 D2]. cbn [map]. rewrite IH by exact D2. f_equal.
  unfold to_upper, is_lower, is_digit in *. replace ((97 <=? c) && (c <=? 122)) with false by lia. reflexivity.
Qed.

Lemma words_run l : forall p w c r, Forall (fun x => is_alnum x = true) l -> (length (w_cur w) + length l < 20)%nat ->
  words_from (l ++ c :: r) p w = words_from (c :: r) (p + length l) (w_put w (w_cur w ++ map to_upper l)).
Proof.
  induction l as [|x l IH]; intros p w c r F L.
  - cbn [app length map]. rewrite app_nil_r, Nat.add_0_r. destruct w as [a b d []  f]; reflexivity.
  - inversion_clear F as [|? ? F1 F2]. destruct (alnum_facts x F1) as (A & _ & _ & N1 & N2). cbn [app words_from length] in *.
    replace (length (w_cur w) <? 20)%nat with true by (symmetry; apply Nat.ltb_lt; lia). rewrite ct by exact A. cbn [bind]. rewrite F1. cbn [orb].
    replace (x =? 45) with false by lia. replace (x =? 47) with false by lia. cbn [andb]. unfold push.
    replace (length (w_cur w) <? 20)%nat with true by (symmetry; apply Nat.ltb_lt; lia). cbn [bind].
    assert (C : w_cur (w_put w (w_cur w ++ [to_upper x])) = w_cur w ++ [to_upper x]) by (destruct w as [a b d [] f]; reflexivity).
    rewrite IH; [|exact F2|rewrite C, app_length; cbn [length]; lia].
    rewrite C. cbn [map length]. rewrite <- app_assoc. replace (S p + length l)%nat with (p + S (length l))%nat by lia.
    f_equal. destruct w as [a b d [] f]; reflexivity.
Qed.
Lemma words_end p w c r : (length (w_cur w) < 20)%nat -> ascii c -> is_alnum c = false -> c <> 45 -> c <> 47 -> words_from (c :: r) p w = Ok (p, w).
Proof.
  intros L A N M S. cbn [words_from]. replace (length (w_cur w) <? 20)%nat with true by (symmetry; apply Nat.ltb_lt; lia). rewrite ct by exact A. cbn [bind].
  rewrite N. replace (c =? 45) with false by lia. replace (c =? 47) with false by lia. reflexivity.
Qed.
Lemma words_dash p w r : (length (w_cur w) < 20)%nat -> Z.land (w_flags w) 1 = 0 ->
  words_from (45 :: r) p w = words_from r (S p) (mkWords (w_opt w) [] (w_t2 w) InTemp1 (Z.lor (w_flags w) 1)).
Proof.
  intros L F. cbn [words_from]. unfold close. replace (length (w_cur w) <? 20)%nat with true by (symmetry; apply Nat.ltb_lt; lia). change (ctype is_alnum 45) with (Ok false). cbn [bind].
  rewrite F. reflexivity.
Qed.
Lemma words_slash p w r : (length (w_cur w) < 20)%nat -> Z.land (w_flags w) 2 = 0 ->
  words_from (47 :: r) p w = words_from r (S p) (mkWords (w_opt w) (w_t1 w) [] InTemp2 (Z.lor (w_flags w) 2)).
Proof.
  intros L F. cbn [words_from]. unfold close. replace (length (w_cur w) <? 20)%nat with true by (symmetry; apply Nat.ltb_lt; lia). change (ctype is_alnum 47) with (Ok false). cbn [bind].
  rewrite F. reflexivity.
Qed.

Lemma tail_digits l : digits l -> tail_letter l = None.
Proof. induction l as [|c l IH]; intros D; [reflexivity|]. inversion_clear D as [|? ? D1 D2]. cbn [tail_letter]. rewrite D1. apply IH, D2. Qed.
Lemma tail_one l c : digits l -> is_alpha c = true -> tail_letter (l ++ [c]) = Some c.
Proof.
  intros D A. induction l as [|x l IH]; cbn [app tail_letter].
  - rewrite A. replace (is_digit c) with false; [reflexivity|]. unfold is_alpha, is_lower, is_upper, is_digit in *. lia.
  - inversion_clear D as [|? ? D1 D2]. rewrite D1. apply IH, D2.
Qed.
Lemma upper_alpha c : is_alpha c = true -> is_alpha (to_upper c) = true /\ is_digit (to_upper c) = false.
Proof. unfold to_upper. destruct (is_lower c) eqn:E; unfold is_alpha, is_lower, is_upper, is_digit in *; lia. Qed.
Lemma split_word w n md : unit_word w n md -> split_model (map to_upper w) = (map to_upper n, option_map to_upper md) /\ Forall (fun x => is_alnum x = true) w /\ w <> [].
Proof.
  intros U. destruct U as [n D N|n c D N A|c n A F].
  - rewrite digits_upper by exact D. split; [|split; [apply digits_alnum, D|exact N]]. unfold split_model. destruct n as [|x n]; [congruence|].
    rewrite tail_digits by exact D. destruct (is_digit x); reflexivity.
  - rewrite map_app, digits_upper by exact D. cbn [map option_map]. destruct (upper_alpha c A) as [A' DG]. split; [|split].
    + unfold split_model. destruct n as [|x n]; [congruence|]. change ((x :: n) ++ [to_upper c]) with (x :: (n ++ [to_upper c])) at 1. cbn iota.
      inversion_clear D as [|? ? D1 D2]. rewrite D1.
      rewrite tail_one; [|constructor; assumption|exact A']. rewrite removelast_last. reflexivity.
    + apply Forall_app. split; [apply digits_alnum, D|]. constructor; [unfold is_alnum; rewrite A; reflexivity|constructor].
    + destruct n; discriminate.
  - split; [|split; [|discriminate]].
    + cbn [map split_model]. destruct (upper_alpha c A) as [_ ->]. reflexivity.
    + constructor; [unfold is_alnum; rewrite A; reflexivity|exact F].
Qed.

Lemma model_at pre sp w n md d s c r o : blanks sp -> unit_word w n md -> (length w < 20)%nat -> part_ok d -> part_ok s ->
  ascii c -> is_alnum c = false -> c <> 45 -> c <> 47 ->
  get_model (pre ++ sp ++ w ++ part 45 d ++ part 47 s ++ c :: r) (length pre) o
  = Ok (length (pre ++ sp ++ w ++ part 45 d ++ part 47 s),
        mkOpt (map to_upper n) (part_flag d 1 + part_flag s 2) (match md with Some x => Some (to_upper x) | None => o_model o end)
          (part_value d (o_dash o)) (part_value s (o_slash o)) (o_addr o) (o_string o), true).
Proof.
  intros B U L PD PS A N C1 C2. destruct (split_word w n md U) as (SM & AL & NE). destruct w as [|x w]; [congruence|]. pose proof AL as AL0. inversion_clear AL0 as [|? ? X1 X2].
  destruct (alnum_facts x X1) as (F1 & F2 & F3 & _). unfold get_model. cbn [app]. rewrite skip_space_at by assumption. cbn [bind].
  set (q := w ++ part 45 d ++ part 47 s ++ c :: r).
  replace (pre ++ sp ++ x :: q) with ((pre ++ sp) ++ x :: q) by (rewrite app_assoc; reflexivity). rewrite rd_at. cbn [bind]. rewrite F3, skipn_at.
  set (W := mkWords (map to_upper (x :: w)) (match d with Some l => l | None => [] end) (match s with Some l => l | None => [] end)
    (match s with Some _ => InTemp2 | None => match d with Some _ => InTemp1 | None => InOpt end end) (part_flag d 1 + part_flag s 2)).
  assert (R : words_from (x :: q) (length (pre ++ sp)) (mkWords [] [] [] InOpt 0) = Ok (length (pre ++ sp ++ (x :: w) ++ part 45 d ++ part 47 s), W)).
  { change (x :: q) with ((x :: w) ++ part 45 d ++ part 47 s ++ c :: r).
    assert (LM : (length (map to_upper (x :: w)) < 20)%nat) by (rewrite map_length; exact L).
    destruct d as [ld|], s as [ls|]; cbn [part part_ok part_flag] in *; cbn [app];
      (change (x :: w ++ ?z) with ((x :: w) ++ z); rewrite words_run by (try assumption; cbn [w_cur w_at w_opt length] in *; lia); cbn [w_cur w_at w_opt w_put app w_t1 w_t2 w_flags]).
    - destruct PD as (D1 & D2 & D3), PS as (S1 & S2 & S3). rewrite words_dash by (try exact LM; reflexivity). cbn [w_opt w_t2 w_flags].
      rewrite words_run by (try (apply digits_alnum; assumption); cbn [w_cur w_at w_t1 length]; lia). cbn [w_put w_cur w_at w_t1 app w_opt w_t2 w_flags].
      rewrite words_slash by (cbn [w_cur w_at w_t1]; rewrite ?map_length; try lia; reflexivity). cbn [w_opt w_t1 w_flags].
      rewrite words_run by (try (apply digits_alnum; assumption); cbn [w_cur w_at w_t2 length]; lia). cbn [w_put w_cur w_at w_t2 app w_opt w_t1 w_flags].
      rewrite words_end by (cbn [w_cur w_at w_t2]; rewrite ?map_length; assumption). rewrite (digits_upper ld), (digits_upper ls) by assumption. f_equal. f_equal.
      rewrite !app_length. cbn [length]. rewrite app_length. cbn [length]. rewrite !app_length. cbn [length]. lia.
    - destruct PD as (D1 & D2 & D3). rewrite words_dash by (try exact LM; reflexivity). cbn [w_opt w_t2 w_flags].
      rewrite words_run by (try (apply digits_alnum; assumption); cbn [w_cur w_at w_t1 length]; lia). cbn [w_put w_cur w_at w_t1 app w_opt w_t2 w_flags].
      rewrite words_end by (cbn [w_cur w_at w_t1]; rewrite ?map_length; assumption). rewrite (digits_upper ld) by assumption. f_equal. f_equal.
      rewrite !app_length. cbn [length]. rewrite app_length. cbn [length]. rewrite !app_length. cbn [length]. lia.
    - destruct PS as (S1 & S2 & S3). 
      rewrite words_slash by (try exact LM; reflexivity). cbn [w_opt w_t1 w_flags].
      rewrite words_run by (try (apply digits_alnum; assumption); cbn [w_cur w_at w_t2 length]; lia). cbn [w_put w_cur w_at w_t2 app w_opt w_t1 w_flags].
      rewrite words_end by (cbn [w_cur w_at w_t2]; rewrite ?map_length; assumption). rewrite (digits_upper ls) by assumption. f_equal. f_equal.
      rewrite !app_length. cbn [length]. rewrite app_length. cbn [length]. lia.
    - rewrite words_end by (try exact LM; assumption). f_equal. f_equal. rewrite !app_length. cbn [length]. rewrite app_length. cbn [length]. lia. }
  rewrite R. cbn [bind fst snd].
  assert (CL : close 20 (w_cur W) = Ok (w_cur W)).
  { unfold close. replace (length (w_cur W) <? 20)%nat with true; [reflexivity|]. symmetry. apply Nat.ltb_lt. subst W. unfold w_cur. destruct s as [ls|]; [|destruct d as [ld|]]; cbn [w_at w_t1 w_t2 w_opt].
    - apply PS. - apply PD. - rewrite map_length. exact L. }
  rewrite CL. cbn [bind]. replace (w_opt W) with (map to_upper (x :: w)) by reflexivity. rewrite SM.
  replace (if negb (Z.land (w_flags W) 1 =? 0) then number (w_t1 W) 0 else Ok (o_dash o)) with (Ok (part_value d (o_dash o))).
  2:{ subst W. destruct d as [ld|], s as [ls|]; cbn [w_flags w_t1 part_flag part_value]; try reflexivity; cbn -[number dec_value]; (rewrite number_run; [reflexivity|apply PD|lia|apply PD]). }
  replace (if negb (Z.land (w_flags W) 2 =? 0) then number (w_t2 W) 0 else Ok (o_slash o)) with (Ok (part_value s (o_slash o))).
  2:{ subst W. destruct d as [ld|], s as [ls|]; cbn [w_flags w_t2 part_flag part_value]; try reflexivity; cbn -[number dec_value]; (rewrite number_run; [reflexivity|apply PS|lia|apply PS]). }
  cbn [bind app]. do 3 f_equal. destruct md; reflexivity.
Qed.

Lemma options_end fuel : forall pre l r o, tame l -> Forall start_char l -> (length l < fuel)%nat -> exists q, options fuel (pre ++ l ++ 0 :: r) (length pre) o = Ok q.
Proof.
  induction fuel as [|f IH]; intros pre l r o T SC L; cbn [options]; [lia|]. destruct (get_option_tame pre l r o T) as (a & c & o' & ok & -> & G & P). rewrite G. cbn [bind].
  destruct ok; [|eexists; reflexivity]. specialize (P SC eq_refl). apply Forall_app in SC. rewrite app_length in L.
  replace (pre ++ (a ++ c) ++ 0 :: r) with ((pre ++ a) ++ c ++ 0 :: r) by (rewrite <- !app_assoc; reflexivity).
  destruct (IH (pre ++ a) c r o' (tame_tail a c T)) as (q & ->); [tauto|destruct a; [congruence|cbn in L; lia]|]. cbn [bind]. eexists. reflexivity.
Qed.

(** A call that makes no progress. *)
Lemma options_stuck m p o o' : get_option m p o = Ok (p, o', true) -> get_option m p o' = Ok (p, o', true) -> forall fuel, options fuel m p o = NoFuel.
Proof.
  intros H1 H2 fuel. assert (X : forall f, options f m p o' = NoFuel) by (induction f as [|f IH]; cbn [options]; [reflexivity|]; rewrite H2; cbn [bind]; rewrite IH; reflexivity).
  destruct fuel as [|f]; cbn [options]; [reflexivity|]. rewrite H1. cbn [bind]. rewrite X. reflexivity.
Qed.

Lemma cstr_id l : Forall (fun c => c <> 0) l -> cstr l = l.
Proof. induction l as [|c l IH]; intros F; [reflexivity|]. inversion_clear F as [|? ? F1 F2]. cbn [cstr]. replace (c =? 0) with false by lia. rewrite IH by exact F2. reflexivity. Qed.
Lemma integer_at o : digits (o_string o) -> o_string o <> [] -> dec_value (o_string o) <= 2147483647 -> get_integer o = Ok (dec_value (o_string o), true).
Proof.
  intros D N V. unfold get_integer. rewrite cstr_id. 2:{ eapply Forall_impl; [|exact D]. intros c E. cbn beta in E. unfold is_digit in E. lia. }
  destruct (o_string o) as [|c l]; [congruence|]. apply integer_run; [exact D|lia|exact V].
Qed.
Lemma str_eqb_iff a : forall b, str_eqb a b = true <-> a = b.
Proof.
  induction a as [|x a IH]; intros [|y b]; cbn [str_eqb]; split; intros H; try discriminate; try reflexivity.
  - apply andb_prop in H. destruct H as [H1 H2]. apply IH in H2. subst. f_equal. lia.
  - injection H as -> ->. rewrite Z.eqb_refl. apply IH. reflexivity.
Qed.
Lemma index_spec s l : forall i, (index_from s l i = -1 /\ ~ In s l) \/ (exists n, index_from s l i = i + Z.of_nat n /\ nth_error l n = Some s /\ ~ In s (firstn n l)).
Proof.
  induction l as [|x l IH]; intros i; cbn [index_from]; [left; split; [reflexivity|intros []]|]. destruct (str_eqb s x) eqn:E.
  - apply str_eqb_iff in E. subst x. right. exists 0%nat. split; [lia|]. split; [reflexivity|]. intros [].
  - assert (N : s <> x) by (intros ->; rewrite (proj2 (str_eqb_iff x x) eq_refl) in E; discriminate).
    destruct (IH (i + 1)) as [(Q & I)|(n & Q & I & F)]; [left|right].
    + split; [exact Q|]. intros [X|X]; [congruence|tauto].
    + exists (S n). split; [rewrite Q; lia|]. split; [exact I|]. cbn [firstn]. intros [X|X]; [congruence|tauto].
Qed.
