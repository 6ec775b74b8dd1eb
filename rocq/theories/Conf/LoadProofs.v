From Verif Require Import Conf.Proofs Conf.LoadSpec.
Open Scope Z_scope.

Lemma same_iff a b : same a b = true <-> a = b.
Proof. unfold same. destruct (list_eq_dec Z.eq_dec a b); split; intros; congruence. Qed.
Lemma same_eqb a b : str_eqb a b = same b a.
Proof.
  destruct (str_eqb a b) eqn:E; destruct (same b a) eqn:F; try reflexivity.
  - apply str_eqb_iff in E. subst. assert (X : same b b = true) by (apply same_iff; reflexivity). congruence.
  - apply same_iff in F. subst. assert (X : str_eqb a a = true) by (apply str_eqb_iff; reflexivity). congruence.
Qed.

Section L.
Context {W : Type}.
Implicit Types (create : creator W) (w : W).

Lemma call_asked create msg e m p o w : call create msg e m p o w = asked create msg (e_create e) m p o w.
Proof. unfold call, asked. destruct (create (e_create e) m p o w) as [[[w' o'] []]| |]; reflexivity. Qed.
Lemma search_find create devs m p o w :
  search create devs m p o w = match lookup devs (o_opt o) with None => Ok (w, o, [Unknown (o_opt o)], true) | Some e => entry_line create e m p o w end.
Proof.
  unfold lookup. induction devs as [|e r IH]; [reflexivity|]. cbn [search find]. rewrite same_eqb. destruct (same (e_name e) (o_opt o)); [reflexivity|exact IH].
Qed.

Lemma addr_none pre sp c r o : blanks sp -> ascii c -> ~ blank c -> is_xdigit c = false -> exists p, get_addr (pre ++ sp ++ c :: r) (length pre) o = Ok (p, o, false).
Proof.
  intros B A N X. assert (N' : is_space c = false) by (unfold blank in N; destruct (is_space c); congruence).
  unfold get_addr. rewrite skip_space_at by assumption. cbn [bind]. rewrite app_assoc, rd_at. cbn [bind]. destruct (at_end c); [eexists; reflexivity|].
  rewrite skipn_at. cbn [hex_from]. rewrite ct by exact A. cbn [bind]. rewrite X. cbn [bind fst snd]. eexists. reflexivity.
Qed.

Lemma line_obeyed create devs h rest f o w : head_ok h -> ends rest -> field rest f -> load_line create devs (head_text h ++ rest) o w = obeyed create devs h rest f o w.
Proof.
  intros (B & U & L & D & S) (c & r & -> & A & N & C1 & C2) F. unfold load_line.
  assert (G : get_model (head_text h ++ c :: r) 0 o = Ok (length (head_text h), given h o, true)).
  { pose proof (model_at [] (h_sp h) (h_w h) (h_n h) (h_md h) (h_d h) (h_s h) c r o B U L D S A N C1 C2) as M. cbn [app length] in M.
    unfold head_text. rewrite <- !app_assoc. rewrite M. reflexivity. }
  rewrite G. cbn [bind]. rewrite search_find. change (o_opt (given h o)) with (map to_upper (h_n h)). unfold obeyed.
  destruct (lookup devs (map to_upper (h_n h))) as [e|]; [|reflexivity]. unfold entry_line. rewrite !call_asked.
  assert (T : forall X : (e_type e =? 2) || (e_type e =? 3) || (e_type e =? 4) = true, 
     (let* g := get_addr (head_text h ++ c :: r) (length (head_text h)) (given h o) in
      let '(p', o', ok) := g in if ok : bool then call create Unable e (head_text h ++ c :: r) p' o' w else Ok (w, o', [Missing (o_opt o')], false))
     = match f with
       | Some (k, a) => asked create Unable (e_create e) (head_text h ++ c :: r) (length (head_text h) + k) (at_addr (given h o) a) w
       | None => Ok (w, given h o, [Missing (map to_upper (h_n h))], false)
       end).
  { intros _. inversion F as [sp l c' r' B1 X1 L1 V1 A1 N1 E1 E2|sp c' r' B1 A1 N1 X1 E1 E2].
    - rewrite addr_at by assumption. cbn [bind]. rewrite call_asked. rewrite (app_length (head_text h)). reflexivity.
    - destruct (addr_none (head_text h) sp c' r' (given h o) B1 A1 N1 X1) as [p ->]. reflexivity. }
  destruct (Z.eq_dec (e_type e) 0) as [E|N0]; [rewrite E; reflexivity|].
  destruct (Z.eq_dec (e_type e) 2) as [E|N2]; [rewrite E in *; exact (T eq_refl)|].
  destruct (Z.eq_dec (e_type e) 3) as [E|N3]; [rewrite E in *; exact (T eq_refl)|].
  destruct (Z.eq_dec (e_type e) 4) as [E|N4]; [rewrite E in *; exact (T eq_refl)|].
  destruct (Z.eq_dec (e_type e) 1) as [E|N1]; [rewrite E; reflexivity|].
  destruct (Z.eq_dec (e_type e) 5) as [E|N5]; [rewrite E; reflexivity|].
  replace (e_type e =? 0) with false by lia. replace (e_type e =? 1) with false by lia. replace (e_type e =? 2) with false by lia.
  replace (e_type e =? 3) with false by lia. replace (e_type e =? 4) with false by lia. replace (e_type e =? 5) with false by lia. cbn [orb].
  destruct (e_type e) as [|q|q]; [congruence| |reflexivity].
  destruct q as [[[q|q|]|[q|q|]|]|[[q|q|]|[q|q|]|]|]; first [reflexivity|congruence].
Qed.

Lemma line_nothing create devs sp e r o w : blanks sp -> e = 0 \/ e = 35 -> load_line create devs (sp ++ e :: r) o w = Ok (w, o, [], true).
Proof.
  intros B E. unfold load_line, get_model. pose proof (skip_space_at [] sp e r B) as S. cbn [app length] in S.
  rewrite S by (destruct E as [-> | ->]; unfold ascii; try lia; reflexivity). cbn [bind].
  rewrite rd_at. cbn [bind]. replace (at_end e) with true by (destruct E as [-> | ->]; reflexivity). reflexivity.
Qed.

(** *** Files *)
Lemma fgets_line l : forall n r, Forall (fun c => c <> 10) l -> (length l < n)%nat -> fgets n (l ++ 10 :: r) = (l ++ [10], r).
Proof.
  induction l as [|c l IH]; intros n r F L; (destruct n as [|n]; [cbn in L; lia|]); cbn [app fgets]; [reflexivity|].
  inversion_clear F as [|? ? F1 F2]. replace (c =? 10) with false by lia. rewrite IH by (try exact F2; cbn in L; lia). reflexivity.
Qed.
Lemma fgets_last l : forall n, Forall (fun c => c <> 10) l -> (length l <= n)%nat -> fgets n l = (l, []).
Proof.
  induction l as [|c l IH]; intros n F L; (destruct n as [|n]; [cbn in L; try lia; reflexivity|]); cbn [fgets]; [reflexivity|].
  inversion_clear F as [|? ? F1 F2]. replace (c =? 10) with false by lia. rewrite IH by (try exact F2; cbn in L; lia). reflexivity.
Qed.
Lemma store_eq a buf : store a buf = a ++ [0] ++ skipn (length a + 1) buf.
Proof. unfold store. rewrite Nat.add_1_r. reflexivity. Qed.

Lemma lines_in_order create devs ls last : Forall short ls -> short last -> forall fuel buf o w, (length (joined ls last) < fuel)%nat ->
  lines fuel create devs buf (joined ls last) o w = then_closed (in_order create devs (given_lines ls last) buf o w).
Proof.
  intros S SL. induction ls as [|l ls IH]; intros fuel buf o w F; (destruct fuel as [|f]; [lia|]).
  - unfold joined, given_lines. cbn [map concat app]. destruct SL as [N L]. cbn [lines]. rewrite (fgets_last last 1023 N) by lia. cbn [fst snd].
    destruct last as [|c q] eqn:E; [reflexivity|]. rewrite <- E in *. cbn [in_order]. rewrite store_eq.
    destruct (load_line create devs (last ++ [0] ++ skipn (length last + 1) buf) o w) as [[[[w1 o1] ev] []]| |]; cbn [bind]; try reflexivity.
    destruct f as [|f]; [unfold joined in F; subst last; cbn in F; lia|]. cbn [lines fgets fst bind then_closed]. rewrite app_nil_r. reflexivity.
  - inversion_clear S as [|? ? [N L] S2]. unfold joined, given_lines in *. cbn [map concat app] in *. rewrite <- !app_assoc in *. cbn [app] in *.
    cbn [lines]. rewrite fgets_line by (try exact N; lia). cbn [fst snd]. cbn [in_order].
    destruct (l ++ [10]) as [|c q] eqn:E; [destruct l; discriminate E|]. cbn beta iota. rewrite <- E in *. rewrite store_eq.
    destruct (load_line create devs ((l ++ [10]) ++ [0] ++ skipn (length (l ++ [10]) + 1) buf) o w) as [[[[w1 o1] ev] []]| |]; cbn [bind]; try reflexivity.
    rewrite IH by (try exact S2; rewrite app_length in F; cbn [length] in F; lia).
    match goal with |- context [then_closed ?x] => destruct x as [[[[w2 o2] ev2] ok]| |] end; cbn [then_closed bind]; [rewrite app_assoc|..]; reflexivity.
Qed.

Lemma lines_step create devs f buf file o w : exists g, g = fgets 1023 file /\
  lines (S f) create devs buf file o w
  = match fst g with
    | [] => Ok (w, o, [Closed], true)
    | a =>
      let* h := load_line create devs (store a buf) o w in
      let '(w, o, ev, ok) := h in
      if ok : bool then
        let* h := lines f create devs (store a buf) (snd g) o w in
        let '(w, o, ev', ok) := h in Ok (w, o, ev ++ ev', ok)
      else Ok (w, o, ev ++ [Closed], false)
    end.
Proof. exists (fgets 1023 file). split; reflexivity. Qed.

(** Reading a file always ends. *)
Lemma fgets_shorter n : forall l, (length (snd (fgets n l)) <= length l)%nat.
Proof. induction n as [|n IH]; intros l; [cbn; lia|]. cbn [fgets]. destruct l as [|c r]; [cbn; lia|]. destruct (c =? 10); [cbn [snd length]; lia|]. specialize (IH r). destruct (fgets n r). cbn [snd length] in *. lia. Qed.
Lemma fgets_eats n l : fst (fgets (S n) l) <> [] -> (length (snd (fgets (S n) l)) < length l)%nat.
Proof.
  cbn [fgets]. destruct l as [|c r]; [cbn; congruence|]. intros _. destruct (c =? 10); [cbn [snd length]; lia|]. pose proof (fgets_shorter n r) as S. destruct (fgets n r). cbn [snd length] in *. lia.
Qed.

Definition finite {A} (r : res A) : Prop := r <> NoFuel.
Lemma lines_end create devs : (forall k m p o w, finite (create k m p o w)) -> (forall m o w, finite (load_line create devs m o w)) ->
  forall fuel buf file o w, (length file < fuel)%nat -> finite (lines fuel create devs buf file o w).
Proof.
  intros C H. induction fuel as [|f IH]; intros buf file o w L; [lia|].
  destruct (lines_step create devs f buf file o w) as (g & G & ->).
  assert (E : fst g <> [] -> (length (snd g) < length file)%nat) by (rewrite G; apply fgets_eats). clear G. destruct g as [[|c q] rest]; cbn [fst snd] in *; [discriminate|].
  assert (E' : (length rest < length file)%nat) by (apply E; discriminate). clear E.
  specialize (H (store (c :: q) buf) o w). destruct (load_line create devs (store (c :: q) buf) o w) as [[[[w1 o1] ev] []]| |]; cbn [bind]; try discriminate; [|exact H].
  specialize (IH (store (c :: q) buf) rest o1 w1 ltac:(lia)). destruct (lines f create devs (store (c :: q) buf) rest o1 w1) as [[[[w2 o2] ev2] ok]| |]; cbn [bind]; try discriminate. exact IH.
Qed.

(** *** Errors *)
Definition clean (ev : list event) : Prop := Forall (fun e => fatal e = false /\ e <> Closed) ev.
Definition verdict (ev : list event) (ok : bool) : Prop :=
  if ok then clean ev else exists a x, ev = a ++ [x] /\ clean a /\ fatal x = true.
Lemma clean1 e : fatal e = false -> e <> Closed -> clean [e].
Proof. intros. apply Forall_cons; [split; assumption|apply Forall_nil]. Qed.
Lemma call_verdict create msg e m p o w w' o' ev ok : (forall n, fatal (msg n) = true) -> call create msg e m p o w = Ok (w', o', ev, ok) -> verdict ev ok.
Proof.
  intros M. unfold call. destruct (create (e_create e) m p o w) as [[[w1 o1] []]| |]; cbn [bind]; intros E; try discriminate E; injection E as <- <- <- <-; cbn [verdict].
  - apply clean1; [reflexivity|discriminate].
  - exists [Create (e_create e) p o], (msg (o_opt o1)). split; [reflexivity|]. split; [apply clean1; [reflexivity|discriminate]|apply M].
Qed.
Lemma line_verdict create devs m o w w' o' ev ok : load_line create devs m o w = Ok (w', o', ev, ok) -> verdict ev ok.
Proof.
  unfold load_line. destruct (get_model m 0 o) as [[[p o1] []]| |]; cbn [bind]; intros E; try discriminate E.
  2:{ injection E as <- <- <- <-. apply Forall_nil. }
  rewrite search_find in E. destruct (lookup devs (o_opt o1)) as [e|].
  2:{ injection E as <- <- <- <-. apply clean1; [reflexivity|discriminate]. }
  unfold entry_line in E. destruct (e_type e =? 0); [injection E as <- <- <- <-; apply Forall_nil|].
  destruct ((e_type e =? 2) || (e_type e =? 3) || (e_type e =? 4)).
  - destruct (get_addr m p o1) as [[[p2 o2] []]| |]; cbn [bind] in E; try discriminate E.
    + apply call_verdict in E; [exact E|reflexivity].
    + injection E as <- <- <- <-. exists [], (Missing (o_opt o2)). split; [reflexivity|]. split; [apply Forall_nil|reflexivity].
  - destruct (e_type e =? 1); [apply call_verdict in E; [exact E|reflexivity]|]. destruct (e_type e =? 5); [apply call_verdict in E; [exact E|reflexivity]|].
    injection E as <- <- <- <-. apply clean1; [reflexivity|discriminate].
Qed.
Lemma lines_verdict create devs fuel : forall buf file o w w' o' ev ok, lines fuel create devs buf file o w = Ok (w', o', ev, ok) ->
  exists a, ev = a ++ [Closed] /\ verdict a ok.
Proof.
  induction fuel as [|f IH]; intros buf file o w w' o' ev ok E; [discriminate E|].
  destruct (lines_step create devs f buf file o w) as (g & G & X). rewrite X in E. clear G X. destruct g as [[|c q] rest]; cbn [fst snd] in E; [injection E as <- <- <- <-; exists []; split; [reflexivity|apply Forall_nil]|].
  destruct (load_line create devs (store (c :: q) buf) o w) as [[[[w1 o1] ev1] ok1]| |] eqn:L; cbn [bind] in E; try discriminate E. apply line_verdict in L. destruct ok1.
  - destruct (lines f create devs (store (c :: q) buf) rest o1 w1) as [[[[w2 o2] ev2] ok2]| |] eqn:R; cbn [bind] in E; try discriminate E.
    injection E as <- <- <- <-. apply IH in R. destruct R as (a & -> & V). exists (ev1 ++ a). split; [apply app_assoc|]. cbn [verdict] in L. destruct ok2; cbn [verdict] in *.
    + apply Forall_app; split; assumption.
    + destruct V as (b & x & -> & V1 & V2). exists (ev1 ++ b), x. split; [apply app_assoc|]. split; [apply Forall_app; split; assumption|exact V2].
  - injection E as <- <- <- <-. exists ev1. split; [reflexivity|exact L].
Qed.
End L.

(** *** Options *)
Lemma meaning_fresh o i : meaning (meaning o i) = meaning o.
Proof. destruct i; reflexivity. Qed.
Fixpoint over {A} (body : option_t -> A -> res (A * bool)) (os : list option_t) (a : A) : res (A * bool) :=
  match os with
  | [] => Ok (a, true)
  | o :: r => let* b := body o a in if snd b then over body r (fst b) else Ok b
  end.
Lemma each_over {A} (body : option_t -> A -> res (A * bool)) items : forall pre t e r o a fuel, items_ok items -> end_ok t e -> (length items < fuel)%nat ->
  each_option fuel body (pre ++ line items ++ t ++ e :: r) (length pre) o a = over body (map (fun x => meaning o (snd x)) items) a.
Proof.
  induction items as [|[sp i] items IH]; intros pre t e r o a fuel OK [T E] F; (destruct fuel as [|f]; [cbn in F; lia|]); cbn [each_option].
  - cbn [line map concat app]. rewrite option_end by (try assumption; tauto). reflexivity.
  - inversion_clear OK as [|? ? (B & NE & I) OK2]. cbn [fst snd] in *.
    assert (Y : exists d q, line items ++ t ++ e :: r = d :: q /\ stop d).
    { destruct items as [|[sp2 i2] items2].
      - cbn [line map concat app]. destruct t as [|d t]; cbn [app]; [exists e, r; split; [reflexivity|]; destruct E as [->|[_ E]]; [|congruence]; split; [unfold ascii; lia|right; reflexivity]|].
        exists d. eexists. split; [reflexivity|]. inversion_clear T as [|? ? T1 T2]. split; [apply blank_ascii, T1|left; exact T1].
      - inversion_clear OK2 as [|? ? (B2 & NE2 & I2) _]. cbn [fst] in *. destruct sp2 as [|d sp2]; [congruence|].
        cbn [line map concat fst app]. exists d. eexists. split; [reflexivity|]. inversion_clear B2 as [|? ? T1 T2]. split; [apply blank_ascii, T1|left; exact T1]. }
    destruct Y as (d & q & Y & D).
    replace (pre ++ line ((sp, i) :: items) ++ t ++ e :: r) with (pre ++ sp ++ text i ++ line items ++ t ++ e :: r) by (unfold line; cbn [map concat fst snd]; rewrite <- !app_assoc; reflexivity).
    rewrite Y, option_at by assumption. cbn [bind]. rewrite <- Y.
    replace (pre ++ sp ++ text i ++ line items ++ t ++ e :: r) with ((pre ++ sp ++ text i) ++ line items ++ t ++ e :: r) by (rewrite <- !app_assoc; reflexivity).
    cbn [map over snd]. destruct (body (meaning o i) a) as [[b []]| |]; cbn [bind fst snd]; try reflexivity.
    rewrite IH; [|exact OK2|split; assumption|cbn in F; lia]. f_equal. apply map_ext. intros [x1 y1]. apply meaning_again.
Qed.

(** get_integer fails for everything that is not a number. *)
Lemma integer_stop l : forall v c r, digits l -> 0 <= v -> fold_left (fun v c => v * 10 + (c - 48)) l v <= 2147483647 -> ascii c -> is_digit c = false ->
  integer_from (l ++ c :: r) v = Ok (fold_left (fun v c => v * 10 + (c - 48)) l v, false).
Proof.
  induction l as [|x l IH]; intros v c r D V H A N; cbn [app integer_from fold_left]; [rewrite ct by exact A; cbn [bind]; rewrite N; reflexivity|].
  inversion_clear D as [|? ? D1 D2]. assert (DR : 48 <= x <= 57) by (unfold is_digit in D1; lia). rewrite ct by (unfold ascii; lia). cbn [bind]. rewrite D1. cbn [fold_left] in H.
  assert (M : v * 10 + (x - 48) <= fold_left (fun v c => v * 10 + (c - 48)) l (v * 10 + (x - 48))).
  { clear -D2 DR V. assert (G : forall l u, Forall (fun c => is_digit c = true) l -> 0 <= u -> u <= fold_left (fun v c => v * 10 + (c - 48)) l u).
    { induction l0 as [|y l0 IH]; intros u D U; cbn [fold_left]; [lia|]. inversion_clear D as [|? ? D1 D3]. unfold is_digit in D1. specialize (IH (u * 10 + (y - 48)) D3 ltac:(lia)). lia. }
    apply G; [exact D2|lia]. }
  unfold int_ok. replace ((v * 10 <=? 2147483647) && (-2147483648 <=? v * 10)) with true by lia. cbn [bind].
  replace ((v * 10 + (x - 48) <=? 2147483647) && (-2147483648 <=? v * 10 + (x - 48))) with true by lia. cbn [bind].
  apply IH; try assumption. lia.
Qed.
Lemma integer_rejects o a c r : o_string o = a ++ c :: r -> Forall (fun x => x <> 0) (o_string o) -> digits a -> dec_value a <= 2147483647 -> ascii c -> is_digit c = false ->
  get_integer o = Ok (dec_value a, false).
Proof.
  intros E F D V A N. unfold get_integer. rewrite cstr_id by exact F. rewrite E. destruct (a ++ c :: r) as [|x q] eqn:Q; [destruct a; discriminate Q|]. rewrite <- Q.
  apply integer_stop; try assumption. lia.
Qed.
Lemma integer_empty o : o_string o = [] -> get_integer o = Ok (0, false).
Proof. intros E. unfold get_integer. rewrite E. reflexivity. Qed.

(** *** The port of the console *)
Lemma PORT_chars : PORT = port_name. Proof. reflexivity. Qed.
Lemma port_step o i v port : item_ok i -> port_item i v -> port_body (meaning o i) port = match v with Some x => Ok (x, true) | None => Ok (port, false) end.
Proof.
  intros OK P. unfold port_body. rewrite same_eqb, PORT_chars.
  assert (T : forall n, map to_upper n = port_name -> same (port_name) (map to_upper n) = true) by (intros n E; apply same_iff; symmetry; exact E).
  assert (F : forall n, map to_upper n <> port_name -> same (port_name) (map to_upper n) = false).
  { intros n E. destruct (same (port_name) (map to_upper n)) eqn:X; [|reflexivity]. apply same_iff in X. congruence. }
  destruct P as [n v E D N V|n v E D N V|n|n v E|n v E|n v c q E -> C]; cbn [meaning o_opt].
  - rewrite T by exact E. rewrite (digits_upper v D). rewrite integer_at by assumption. reflexivity.
  - rewrite T by exact E. rewrite integer_at by assumption. reflexivity.
  - destruct (same (port_name) (map to_upper n)); [|reflexivity]. rewrite integer_empty by reflexivity. reflexivity.
  - rewrite F by exact E. reflexivity.
  - rewrite F by exact E. reflexivity.
  - rewrite T by exact E. destruct OK as (NO & PC & ST & LN). pose proof PC as PC0. inversion_clear PC0 as [|? ? (A & NZ & NB) PC2].
    assert (UA : forall x, plain_char x -> to_upper x <> 0).
    { intros z0 (A1 & A2 & A3). unfold to_upper. destruct (is_lower z0) eqn:Lx; [unfold is_lower in Lx; lia|exact A2]. }
    rewrite (integer_rejects _ [] (to_upper c) (map to_upper q)); [reflexivity|reflexivity| | |cbn; lia| |].
    + cbn [o_string]. apply Forall_map. eapply Forall_impl; [|exact PC]. exact UA.
    + apply Forall_nil.
    + unfold to_upper, ascii in *. destruct (is_lower c) eqn:Lx; [unfold is_lower in Lx; lia|exact A].
    + unfold to_upper. destruct (is_lower c) eqn:Lx; [|exact C]. unfold is_lower, is_digit in *. lia.
Qed.
Lemma port_over o items vs : forall port, items_ok items -> Forall2 (fun x v => port_item (snd x) v) items vs ->
  exists q, over port_body (map (fun x => meaning o (snd x)) items) port = Ok (q, match port_of vs port with Some _ => true | None => false end) /\
  (forall x, port_of vs port = Some x -> q = x).
Proof.
  intros port OK P. revert port OK. induction P as [|x v items vs P1 P2 IH]; intros port OK; cbn [map over port_of].
  - exists port. split; [reflexivity|]. congruence.
  - inversion_clear OK as [|? ? (B & NE & I) OK2]. rewrite (port_step o (snd x) v) by assumption. destruct v as [v|]; cbn [bind fst snd].
    + apply IH. exact OK2.
    + exists port. split; [reflexivity|discriminate].
Qed.

(** *** The CPUs *)
Lemma cells_at c : 65 <= c <= 84 -> cells c = Ok (memory c).
Proof.
  intros H. unfold cells, memory. replace ((0 <=? c - 65) && (c - 65 <=? 19)) with true by lia.
  rewrite Z.shiftl_mul_pow2 by lia. rewrite Z.pow_add_r by lia. reflexivity.
Qed.
Lemma memory_mono a b : 65 <= a <= b -> memory a <= memory b.
Proof. intros H. unfold memory. apply Z.pow_le_mono_r; lia. Qed.
Definition limited (lo hi c : Z) : Prop := memory lo <= memory c <= memory hi.
Lemma memory_le a b : 65 <= a -> 65 <= b -> (memory a <= memory b <-> a <= b).
Proof. intros. unfold memory. rewrite <- Z.pow_le_mono_r_iff by lia. lia. Qed.

Lemma create30 fuel room items vs pre t e r opt c w : items_ok items -> end_ok t e -> (length items < fuel)%nat -> Forall2 (fun x v => port_item (snd x) v) items vs ->
  o_model opt = Some c -> 65 <= c <= 84 -> y_title w = false ->
  create2030 fuel room (pre ++ line items ++ t ++ e :: r) (length pre) opt w =
  Ok (match port_of vs 3270 with
      | Some p => if (c <=? 70) && room (memory c) then (mkSys true (memory c) (memory c - 1) p (y_level w) (y_log w), true)
                  else (mkSys true (y_cells w) (y_max w) (y_port w) (y_level w) (y_log w), false)
      | None => (mkSys true (y_cells w) (y_max w) (y_port w) (y_level w) (y_log w), false)
      end).
Proof.
  intros I E F P M C T. unfold create2030. rewrite T. cbn [y_cells y_max y_port y_level y_log]. rewrite each_over by assumption.
  destruct (port_over fresh items vs 3270 I P) as (q & -> & Q). cbn [bind snd fst]. destruct (port_of vs 3270) as [p|]; cbn [negb]; [|reflexivity].
  rewrite (Q p eq_refl), M. replace (c =? 0) with false by lia. rewrite cells_at by lia. cbn [bind negb andb].
  assert (X : (65536 <? memory c) = negb (c <=? 70)). { change 65536 with (memory 70). pose proof (memory_le c 70 ltac:(lia) ltac:(lia)). lia. }
  rewrite X. destruct (c <=? 70); cbn [negb andb]; [|reflexivity]. destruct (room (memory c)); reflexivity.
Qed.
Lemma create50 room opt c w : o_model opt = Some c -> 65 <= c <= 84 -> y_title w = false ->
  create2050 room opt w = Ok (if (70 <=? c) && (c <=? 73) && room (memory c / 4) then (mkSys true (memory c / 4) (memory c - 1) (y_port w) (y_level w) (y_log w), true)
                              else (mkSys true (y_cells w) (y_max w) (y_port w) (y_level w) (y_log w), false)).
Proof.
  intros M C T. unfold create2050. rewrite T. cbn [y_cells y_max y_port y_level y_log]. rewrite M. replace (c =? 0) with false by lia. rewrite cells_at by lia. cbn [bind negb andb].
  assert (X : (memory c <? 65536) = negb (70 <=? c)). { change 65536 with (memory 70). pose proof (memory_le 70 c ltac:(lia) ltac:(lia)). lia. }
  assert (Y : (524288 <? memory c) = negb (c <=? 73)). { change 524288 with (memory 73). pose proof (memory_le c 73 ltac:(lia) ltac:(lia)). lia. }
  rewrite X, Y. destruct (70 <=? c), (c <=? 73); cbn [negb andb orb]; try reflexivity. destruct (room (memory c / 4)); reflexivity.
Qed.
Lemma create_second fuel room m p opt w : y_title w = true -> create2030 fuel room m p opt w = Ok (w, false) /\ create2050 room opt w = Ok (w, false).
Proof. intros T. unfold create2030, create2050. rewrite T. split; reflexivity. Qed.

(** *** The levels of the log *)
Definition known (o : option_t) : option Z := if negb (o_flags o =? 0) then None else log_mask log_type (o_opt o).
Lemma level_step o a : level_body o a = Ok (match known o with Some k => (Z.lor (fst a) k, snd a) | None => (fst a, false) end, true).
Proof. unfold level_body, known. destruct (negb (o_flags o =? 0)); [reflexivity|]. destruct (log_mask log_type (o_opt o)); reflexivity. Qed.

Lemma mask_find l n : forall k, log_mask l n = Some k -> In (k, n) l.
Proof.
  induction l as [|[k' x] l IH]; intros k H; [discriminate H|]. cbn [log_mask] in H. destruct (str_eqb n x) eqn:E; [apply str_eqb_iff in E; subst; injection H as ->; left; reflexivity|right; apply IH, H].
Qed.
Lemma mask_none l n : log_mask l n = None -> ~ In n (map snd l).
Proof.
  induction l as [|[k' x] l IH]; intros H; [intros []|]. cbn [log_mask] in H. destruct (str_eqb n x) eqn:E; [discriminate H|]. intros [<-|B]; [|exact (IH H B)].
  cbn [snd] in E. rewrite (proj2 (str_eqb_iff x x) eq_refl) in E. discriminate E.
Qed.
Lemma names_eq : map snd log_type = level_names. Proof. reflexivity. Qed.
Lemma masks_eq : map fst log_type = map (fun k => 2 ^ Z.of_nat k) (seq 0 19). Proof. reflexivity. Qed.
Lemma mask_place n : match log_mask log_type n with
  | Some m => exists k, m = 2 ^ Z.of_nat k /\ nth_error level_names k = Some n
  | None => ~ In n level_names end.
Proof.
  destruct (log_mask log_type n) as [m|] eqn:E; [|rewrite <- names_eq; apply mask_none, E].
  apply mask_find in E. apply In_nth_error in E. destruct E as [k E]. exists k. rewrite <- names_eq. split.
  - assert (X : nth_error (map fst log_type) k = Some m) by (rewrite nth_error_map, E; reflexivity).
    assert (K : (k < 19)%nat) by (change 19%nat with (length log_type); apply nth_error_Some; congruence).
    rewrite masks_eq in X. rewrite nth_error_map in X. rewrite nth_error_nth' with (d := 0%nat) in X by (rewrite seq_length; exact K).
    rewrite seq_nth in X by exact K. cbn [option_map] in X. injection X as <-. reflexivity.
  - rewrite nth_error_map, E. reflexivity.
Qed.
Lemma names_once k j n : nth_error level_names k = Some n -> nth_error level_names j = Some n -> k = j.
Proof.
  assert (N : NoDup level_names).
  { assert (X : forall l, (fix nd (l : list (list Z)) := match l with [] => true | x :: r => negb (existsb (same x) r) && nd r end) l = true -> NoDup l).
    { induction l as [|x l IH]; intros H; [constructor|]. apply andb_prop in H. destruct H as [H1 H2]. constructor; [|apply IH, H2]. intros I.
      assert (Y : existsb (same x) l = true) by (apply existsb_exists; exists x; split; [exact I|apply same_iff; reflexivity]). rewrite Y in H1. discriminate H1. }
    apply X. vm_compute. reflexivity. }
  intros A B. apply (proj1 (NoDup_nth_error level_names) N); [|congruence]. apply nth_error_Some. congruence.
Qed.
Lemma pow_bit k b : 0 <= b -> Z.testbit (2 ^ Z.of_nat k) b = (b =? Z.of_nat k).
Proof. intros. rewrite Z.pow2_bits_eqb by lia. apply Z.eqb_sym. Qed.

Definition wants (os : list option_t) (k : nat) : bool :=
  existsb (fun o => match known o with Some m => m =? 2 ^ Z.of_nat k | None => false end) os.
Lemma level_over os : forall a ok, exists l, over level_body os (a, ok) = Ok ((l, ok && forallb (fun o => match known o with Some _ => true | None => false end) os), true) /\
  forall k, Z.testbit l (Z.of_nat k) = Z.testbit a (Z.of_nat k) || wants os k.
Proof.
  induction os as [|o os IH]; intros a ok; cbn [over forallb wants existsb].
  - exists a. split; [rewrite andb_true_r; reflexivity|]. intros k. rewrite orb_false_r. reflexivity.
  - rewrite level_step. cbn [bind fst snd]. destruct (known o) as [m|] eqn:K.
    + destruct (IH (Z.lor a m) ok) as (l & -> & L). exists l. split; [reflexivity|]. intros k. rewrite L, Z.lor_spec, <- orb_assoc. f_equal. f_equal.
      unfold known in K. destruct (negb (o_flags o =? 0)); [discriminate K|]. pose proof (mask_place (o_opt o)) as P. rewrite K in P. destruct P as (j & -> & _).
      rewrite pow_bit by lia. destruct (Z.eqb_spec (Z.of_nat k) (Z.of_nat j)) as [E|E].
      * symmetry. apply Z.eqb_eq. f_equal. symmetry. exact E.
      * symmetry. apply Z.eqb_neq. intros Q. apply Z.pow_inj_r in Q; lia.
    + destruct (IH a false) as (l & -> & L). exists l. split; [rewrite andb_false_r; reflexivity|]. intros k. rewrite L. reflexivity.
Qed.
Lemma known_item o i : match known (meaning o i) with
  | Some m => exists k n, m = 2 ^ Z.of_nat k /\ nth_error level_names k = Some n /\ level_word i n
  | None => ~ level_ok i end.
Proof.
  unfold known. destruct i as [n|n v|n v]; cbn [meaning o_flags o_opt Z.eqb negb].
  - pose proof (mask_place (map to_upper n)) as P. destruct (log_mask log_type (map to_upper n)) as [m|].
    + destruct P as (k & -> & K). exists k, (map to_upper n). split; [reflexivity|]. split; [exact K|]. exists n. split; reflexivity.
    + intros (x & (y & E & <-) & I). injection E as <-. exact (P I).
  - intros (x & (y & E & _) & _). discriminate E.
  - intros (x & (y & E & _) & _). discriminate E.
Qed.
Lemma createLEVEL_line fuel items pre t e r w : items_ok items -> end_ok t e -> (length items < fuel)%nat ->
  exists l ok, createLEVEL fuel (pre ++ line items ++ t ++ e :: r) (length pre) w = Ok (mkSys (y_title w) (y_cells w) (y_max w) (y_port w) l (y_log w), ok) /\
  (ok = true <-> Forall (fun x => level_ok (snd x)) items) /\
  (forall k, Z.testbit l (Z.of_nat k) = true <->
     Z.testbit (y_level w) (Z.of_nat k) = true \/ exists x n, In x items /\ level_word (snd x) n /\ nth_error level_names k = Some n).
Proof.
  intros I E F. unfold createLEVEL. rewrite each_over by assumption.
  destruct (level_over (map (fun x => meaning fresh (snd x)) items) (y_level w) true) as (l & -> & L). cbn [bind fst snd andb].
  exists l. eexists. split; [reflexivity|]. split.
  - rewrite forallb_forall, Forall_forall. split; intros H x Q.
    + specialize (H (meaning fresh (snd x)) (in_map (fun x => meaning fresh (snd x)) items x Q)). pose proof (known_item fresh (snd x)) as K. destruct (known (meaning fresh (snd x))); [|discriminate H].
      destruct K as (k & n & _ & N & LW). exists n. split; [exact LW|]. eapply nth_error_In. exact N.
    + apply in_map_iff in Q. destruct Q as (y & <- & Q). pose proof (known_item fresh (snd y)) as K. destruct (known (meaning fresh (snd y))); [reflexivity|]. destruct (K (H y Q)).
  - intros k. rewrite L, orb_true_iff. apply or_iff_compat_l. unfold wants. rewrite existsb_exists. split.
    + intros (o & Q & M). apply in_map_iff in Q. destruct Q as (y & <- & Q). pose proof (known_item fresh (snd y)) as K. destruct (known (meaning fresh (snd y))) as [m|]; [|discriminate M].
      destruct K as (j & n & -> & N & LW). apply Z.eqb_eq in M. apply Z.pow_inj_r in M; [|lia|lia|lia]. apply Nat2Z.inj in M. subst j. exists y, n. split; [exact Q|]. split; [exact LW|exact N].
    + intros (y & n & Q & LW & N). exists (meaning fresh (snd y)). split; [apply (in_map (fun x => meaning fresh (snd x))), Q|]. pose proof (known_item fresh (snd y)) as K. destruct (known (meaning fresh (snd y))) as [m|].
      * destruct K as (j & n' & -> & N' & LW'). destruct LW as (x & X1 & X2). destruct LW' as (x' & X1' & X2'). rewrite X1 in X1'. injection X1' as <-. rewrite X2 in X2'. subst n'.
        rewrite (names_once j k n N' N). apply Z.eqb_refl.
      * destruct K. exists n. split; [exact LW|]. eapply nth_error_In. exact N.
Qed.
