(** The keyboard queue. *)
From Verif Require Import K1052.Spec.

Lemma land255 x : Z.land x 255 = x mod 256. Proof. change 255 with (Z.ones 8). rewrite Z.land_ones by lia. reflexivity. Qed.
Definition qa (keys : list Z) (o n : Z) : list Z := map (fun k => nth (Z.to_nat (Z.land (o + Z.of_nat k) 255)) keys 0) (seq 0 (Z.to_nat n)).
Lemma queue_qa s : queue s = qa (c_keys s) (c_optr s) (c_ilen s). Proof. reflexivity. Qed.
Definition qok (keys : list Z) (o n i : Z) : Prop := length keys = 256%nat /\ 0 <= o < 256 /\ 0 <= n <= 256 /\ i = (o + n) mod 256.
Lemma queue_qok s : queue_ok s <-> qok (c_keys s) (c_optr s) (c_ilen s) (c_iptr s). Proof. reflexivity. Qed.
Lemma qa_length k o n : length (qa k o n) = Z.to_nat n. Proof. unfold qa. rewrite map_length, seq_length. reflexivity. Qed.
Lemma qa_nil k o : qa k o 0 = []. Proof. reflexivity. Qed.
Lemma nth_upd (l : list Z) i j x : (i < length l)%nat -> nth j (upd l i x) 0 = if Nat.eqb i j then x else nth j l 0.
Proof.
  intros H. pose proof (upd_nth l i j x) as U. destruct (Nat.eqb_spec i j) as [->|N].
  - destruct (nth_error l j) eqn:E; [apply nth_error_nth with (d := 0) in U; exact U|apply nth_error_None in E; lia].
  - destruct (nth_error l j) eqn:E.
    + apply nth_error_nth with (d := 0) in U. apply nth_error_nth with (d := 0) in E. congruence.
    + rewrite !nth_overflow; [reflexivity|apply nth_error_None; exact E|rewrite upd_length; apply nth_error_None; exact E].
Qed.
Lemma mod_far o n k : 0 <= o < 256 -> 0 <= k < n -> n < 256 -> (o + k) mod 256 <> (o + n) mod 256.
Proof. intros O K N E. pose proof (Z.div_mod (o + k) 256 ltac:(lia)). pose proof (Z.div_mod (o + n) 256 ltac:(lia)).
  pose proof (Z.mod_pos_bound (o + k) 256 ltac:(lia)). lia. Qed.
Lemma push_q keys o n i c : qok keys o n i -> n < 256 -> qok (upd keys (Z.to_nat i) c) o (n + 1) (Z.land (i + 1) 255) /\
  qa (upd keys (Z.to_nat i) c) o (n + 1) = qa keys o n ++ [c].
Proof.
  intros (L & O & N & I) N2. pose proof (Z.mod_pos_bound (o + n) 256 ltac:(lia)) as B. split.
  - split; [rewrite upd_length; exact L|]. split; [exact O|]. split; [lia|]. rewrite land255, I, Zplus_mod_idemp_l. f_equal. lia.
  - unfold qa. replace (Z.to_nat (n + 1)) with (Z.to_nat n + 1)%nat by lia. rewrite seq_app, map_app. cbn [seq map Nat.add]. f_equal.
    + apply map_ext_in. intros k K. apply in_seq in K. rewrite nth_upd by lia. rewrite land255.
      pose proof (mod_far o n (Z.of_nat k) O ltac:(lia) N2) as F. pose proof (Z.mod_pos_bound (o + Z.of_nat k) 256 ltac:(lia)).
      destruct (Nat.eqb_spec (Z.to_nat i) (Z.to_nat ((o + Z.of_nat k) mod 256))) as [E|E]; [|reflexivity]. exfalso. apply F. lia.
    + rewrite nth_upd by lia. rewrite land255, Z2Nat.id by lia. rewrite <- I, Nat.eqb_refl. reflexivity.
Qed.
Lemma pop_q keys o n i : qok keys o n i -> 0 < n -> qok keys (Z.land (o + 1) 255) (n - 1) i /\
  qa keys o n = nth (Z.to_nat o) keys 0 :: qa keys (Z.land (o + 1) 255) (n - 1).
Proof.
  intros (L & O & N & I) P. pose proof (Z.mod_pos_bound (o + 1) 256 ltac:(lia)) as B. rewrite land255. split.
  - split; [exact L|]. split; [lia|]. split; [lia|]. rewrite I. rewrite Zplus_mod_idemp_l. f_equal. lia.
  - unfold qa. replace (Z.to_nat n) with (S (Z.to_nat (n - 1))) by lia. cbn [seq map]. f_equal.
    + rewrite land255, Z.add_0_r, Z.mod_small by lia. reflexivity.
    + rewrite <- seq_shift, map_map. apply map_ext. intros k. rewrite !land255. f_equal. f_equal. rewrite Zplus_mod_idemp_l. f_equal. lia.
Qed.
Lemma tab_nth t i : 0 <= i < Z.of_nat (length t) -> tab t i = Ok (nth (Z.to_nat i) t 0).
Proof.
  intros H. destruct (tab_ok t i H) as [v E]. rewrite E. unfold tab in E. destruct (i <? 0); [discriminate|].
  destruct (nth_error t (Z.to_nat i)) eqn:F; [|discriminate]. injection E as <-. apply nth_error_nth with (d := 0) in F. rewrite F. reflexivity.
Qed.
Lemma tab_out t i : ~ 0 <= i < Z.of_nat (length t) -> tab t i = UB.
Proof. intros H. destruct (tab t i) eqn:E; [apply tab_range in E; contradiction|reflexivity|]. unfold tab in E. destruct (i <? 0); [discriminate|]. destruct (nth_error _ _); discriminate. Qed.

(** What keeps the queue. *)
Definition sameq (s s' : dev) : Prop := c_keys s' = c_keys s /\ c_optr s' = c_optr s /\ c_ilen s' = c_ilen s /\ c_iptr s' = c_iptr s.
Lemma sameq_q s s' : sameq s s' -> queue s' = queue s. Proof. intros (A & B & C & _). unfold queue. rewrite A, B, C. reflexivity. Qed.
Lemma sameq_ok s s' : sameq s s' -> queue_ok s -> queue_ok s'. Proof. intros (A & B & C & D). unfold queue_ok. rewrite A, B, C, D. trivial. Qed.
Lemma func_q s tin : queue_ok s -> queue_ok (fst (func s tin)) /\ queue (fst (func s tin)) = if c_cons s && bit tin 1 then [] else queue s.
Proof.
  intros (L & O & N & I). unfold func. destruct (c_cons s); [|split; [repeat split; try assumption; try apply N; try apply O|reflexivity]]. cbn [andb].
  destruct (bit tin 1) eqn:B1, (bit tin 2), (bit tin 128), (Z.land tin 80 =? 80), (bit tin 4); cbn [fst];
    (split; [unfold queue_ok; cbn; split; [exact L|]; split; [|split; [|]]; try lia; try (rewrite I; first [exact O|apply Z.mod_pos_bound; lia]); try exact I;
      rewrite I, Z.add_0_r, Z.mod_mod by lia; reflexivity|reflexivity]).
Qed.
Lemma in_q s : queue_ok s -> c_iflg s = true -> forall c q, queue s = c :: q ->
  (forall s' x, in_char s = Ok (s', x) -> exists w, x = Some w /\ with_parity (code c) = Ok w /\ 0 <= c < 128 /\ queue s' = q /\ queue_ok s' /\ s' = set_ilen (c_ilen s - 1) (set_optr (Z.land (c_optr s + 1) 255) s)) /\
  (0 <= c < 128 -> exists r, in_char s = Ok r) /\ (~ 0 <= c < 128 -> in_char s = UB).
Proof.
  intros Q F c q E. pose proof Q as (L & O & N & I).
  assert (P : 0 < c_ilen s). { destruct (Z_lt_dec 0 (c_ilen s)); [assumption|]. rewrite queue_qa in E. replace (c_ilen s) with 0 in E by lia. discriminate E. }
  destruct (pop_q _ _ _ _ (proj1 (queue_qok s) Q) P) as [Q' E']. rewrite queue_qa, E' in E. injection E as EC EQ.
  unfold in_char. rewrite F. replace (0 <? c_ilen s) with true by lia. cbn [andb].
  rewrite (tab_nth (c_keys s)) by lia. cbn [bind]. rewrite EC.
  assert (LA : length ascii_to_ebcdic = 128%nat) by reflexivity.
  assert (CB : 0 <= c < 128 -> exists w, with_parity (code c) = Ok w /\ tab ascii_to_ebcdic c = Ok (code c)).
  { intros C. rewrite tab_nth by (rewrite LA; lia). unfold code.
    pose proof (sweep 128 (fun c => let e := nth (Z.to_nat c) ascii_to_ebcdic 0 in (0 <=? e) && (e <? 256)) ltac:(vm_compute; reflexivity) c C) as S. cbn beta zeta in S. apply andb_true_iff in S.
    destruct (with_parity_ok (nth (Z.to_nat c) ascii_to_ebcdic 0) ltac:(lia)) as (w & W & _). exists w. split; [exact W|reflexivity]. }
  split; [|split].
  - intros s' x H. destruct (Z_lt_dec c 0) as [C1|C1]; [rewrite tab_out in H by lia; discriminate|].
    destruct (Z_lt_dec c 128) as [C2|C2]; [|rewrite tab_out in H by (rewrite LA; lia); discriminate].
    destruct (CB ltac:(lia)) as (w & W & T). rewrite T in H. cbn [bind] in H. rewrite W in H. cbn [bind] in H. injection H as <- <-. exists w.
    split; [reflexivity|]. split; [exact W|]. split; [lia|]. split; [exact EQ|]. split; [exact Q'|reflexivity].
  - intros C. destruct (CB C) as (w & W & T). rewrite T. cbn [bind]. rewrite W. eexists. reflexivity.
  - intros C. rewrite tab_out by (rewrite LA; lia). reflexivity.
Qed.
Lemma in_none s : c_iflg s = false \/ c_ilen s <= 0 -> in_char s = Ok (s, None).
Proof. intros H. unfold in_char. destruct H as [->|H]; [reflexivity|]. replace (0 <? c_ilen s) with false by lia. rewrite andb_false_r. reflexivity. Qed.
Lemma queue_nil s : queue_ok s -> (queue s = [] <-> c_ilen s <= 0).
Proof.
  intros (_ & _ & N & _). rewrite queue_qa. split; intros H.
  - apply (f_equal (@length Z)) in H. rewrite qa_length in H. cbn in H. lia.
  - replace (c_ilen s) with 0 by lia. reflexivity.
Qed.
Lemma queue_len s : queue_ok s -> Z.of_nat (length (queue s)) = c_ilen s. Proof. intros (_ & _ & N & _). rewrite queue_qa, qa_length. lia. Qed.

(** One key. *)
Definition got (s : dev) (c : Z) : list Z := if c_iflg s && negb (control c) then [c] else [].
Lemma push_char_q c s : queue_ok s -> c_ilen s < 256 -> queue_ok (push_char c s) /\ queue (push_char c s) = queue s ++ got s c /\
  c_iflg (push_char c s) = c_iflg s /\ c_cons (push_char c s) = c_cons s /\ c_tn (push_char c s) = c_tn s /\
  c_attn (push_char c s) = c_attn s || (c =? 27) /\ c_eob (push_char c s) = c_eob s || (c_iflg s && (c =? 13)) /\
  c_cancel (push_char c s) = c_cancel s || (c_iflg s && (c =? 3)).
Proof.
  intros Q N. unfold push_char, got, control.
  destruct (c =? 12) eqn:E1; [apply Z.eqb_eq in E1; subst c; cbn; rewrite ?andb_false_r, ?app_nil_r, ?orb_false_r; repeat split; apply Q|].
  destruct (c =? 27) eqn:E2; [apply Z.eqb_eq in E2; subst c; cbn; rewrite ?andb_false_r, ?app_nil_r, ?orb_false_r, ?orb_true_r; repeat split; apply Q|].
  destruct (c_iflg s) eqn:F; [|cbn; rewrite ?app_nil_r, ?orb_false_r; repeat split; try apply Q; assumption].
  destruct (c =? 3) eqn:E3; [apply Z.eqb_eq in E3; subst c; cbn; rewrite ?app_nil_r, ?orb_false_r, ?orb_true_r; repeat split; try apply Q; assumption|].
  destruct (c =? 13) eqn:E4; [apply Z.eqb_eq in E4; subst c; cbn; rewrite ?app_nil_r, ?orb_false_r, ?orb_true_r; repeat split; try apply Q; assumption|].
  destruct (push_q _ _ _ _ c (proj1 (queue_qok s) Q) N) as [Q' E]. cbn. rewrite !orb_false_r. split; [exact Q'|]. split; [exact E|]. repeat split; assumption.
Qed.
(** Any byte. *)
Lemma telnet_q b s : queue_ok s -> c_ilen s < 256 -> queue_ok (telnet b s) /\ (exists m, queue (telnet b s) = queue s ++ m) /\ c_cons (telnet b s) = c_cons s /\ c_iflg (telnet b s) = c_iflg s.
Proof.
  intros Q N. destruct (push_char_q b s Q N) as (Q1 & E1 & F1 & C1 & _).
  assert (K : queue_ok s /\ (exists m, queue s = queue s ++ m) /\ c_cons s = c_cons s /\ c_iflg s = c_iflg s) by (repeat split; try apply Q; exists []; rewrite app_nil_r; reflexivity).
  assert (K1 : queue_ok (push_char b s) /\ (exists m, queue (push_char b s) = queue s ++ m) /\ c_cons (push_char b s) = c_cons s /\ c_iflg (push_char b s) = c_iflg s).
  { split; [exact Q1|]. split; [exists (got s b); exact E1|]. split; assumption. }
  unfold telnet. destruct (c_tn s); try exact K; repeat match goal with |- context[if ?x then _ else _] => destruct x end; try exact K; exact K1.
Qed.
Lemma receive_q l : forall s, queue_ok s -> queue_ok (receive l s) /\ (exists m, queue (receive l s) = queue s ++ m) /\ c_cons (receive l s) = c_cons s /\ c_iflg (receive l s) = c_iflg s.
Proof.
  induction l as [|b l IH]; intros s Q; cbn [receive].
  - split; [exact Q|]. split; [exists []; rewrite app_nil_r; reflexivity|split; reflexivity].
  - destruct (c_ilen s <? 256) eqn:N; [|split; [exact Q|]; split; [exists []; rewrite app_nil_r; reflexivity|split; reflexivity]].
    apply Z.ltb_lt in N. destruct (telnet_q b s Q N) as (Q1 & (m & E1) & C1 & F1). destruct (IH _ Q1) as (Q2 & (m2 & E2) & C2 & F2).
    split; [exact Q2|]. split; [exists (m ++ m2); rewrite E2, E1, app_assoc; reflexivity|]. split; congruence.
Qed.
Lemma receive_app l1 : forall l2 s, receive (l1 ++ l2) s = receive l2 (receive l1 s).
Proof.
  induction l1 as [|b l1 IH]; intros l2 s; [reflexivity|]. cbn [app receive]. destruct (c_ilen s <? 256) eqn:N; [apply IH|].
  destruct l2; cbn [receive]; [reflexivity|]. rewrite N. reflexivity.
Qed.
(** The keys in units. *)
Definition gets (f : bool) (l : list Z) : list Z := if f then filter (fun c => negb (control c)) l else [].
Lemma got_gets s c : got s c = gets (c_iflg s) [c]. Proof. unfold got, gets. cbn. destruct (c_iflg s), (control c); reflexivity. Qed.
Lemma firstn_full {A} n (l m : list A) : length l = n -> firstn n (l ++ m) = l.
Proof. intros <-. rewrite firstn_app, Nat.sub_diag, firstn_all, firstn_O, app_nil_r. reflexivity. Qed.
Definition bits_in (s s' : dev) (l : list Z) : Prop :=
  c_attn s' = c_attn s || existsb (Z.eqb 27) l /\ c_eob s' = c_eob s || (c_iflg s && existsb (Z.eqb 13) l) /\ c_cancel s' = c_cancel s || (c_iflg s && existsb (Z.eqb 3) l).
Lemma bits_nil s s' : c_attn s' = c_attn s -> c_eob s' = c_eob s -> c_cancel s' = c_cancel s -> bits_in s s' [].
Proof. intros A B C. unfold bits_in. rewrite A, B, C. cbn. rewrite !andb_false_r, !orb_false_r. repeat split. Qed.
Lemma unit_q u s : unit_ok u -> queue_ok s -> c_tn s = T_NORM -> c_ilen s < 256 ->
  let s' := receive (bytes_of u) s in queue_ok s' /\ queue s' = queue s ++ gets (c_iflg s) (chars_of u) /\ c_tn s' = T_NORM /\ c_iflg s' = c_iflg s /\ bits_in s s' (chars_of u).
Proof.
  intros U Q T N. assert (N' : (c_ilen s <? 256) = true) by lia.
  assert (K : forall s', sameq s s' -> c_tn s' = T_NORM -> c_iflg s' = c_iflg s -> c_attn s' = c_attn s -> c_eob s' = c_eob s -> c_cancel s' = c_cancel s ->
    queue_ok s' /\ queue s' = queue s ++ gets (c_iflg s) [] /\ c_tn s' = T_NORM /\ c_iflg s' = c_iflg s /\ bits_in s s' []).
  { intros s' S T' F' A B C. split; [exact (sameq_ok _ _ S Q)|]. split; [rewrite (sameq_q _ _ S); unfold gets; destruct (c_iflg s); cbn; rewrite app_nil_r; reflexivity|].
    split; [exact T'|]. split; [exact F'|]. apply bits_nil; assumption. }
  assert (SQ : sameq s s) by (repeat split).
  assert (BI : forall x c, c_attn x = c_attn s -> c_eob x = c_eob s -> c_cancel x = c_cancel s -> c_iflg x = c_iflg s -> queue_ok x -> c_ilen x < 256 -> bits_in s (push_char c x) [c]).
  { intros x c A B C D QX NX. destruct (push_char_q c x QX NX) as (_ & _ & _ & _ & _ & A1 & A2 & A3). unfold bits_in. cbn [existsb]. rewrite !orb_false_r.
    rewrite A1, A2, A3, A, B, C, D, (Z.eqb_sym 27), (Z.eqb_sym 13), (Z.eqb_sym 3). repeat split. }
  assert (TI : telnet 255 s = set_tn T_IAC s) by (unfold telnet; rewrite T; reflexivity).
  destruct u as [c| | |v o]; cbn [bytes_of chars_of unit_ok] in *; cbv zeta.
  - assert (E : receive [c] s = push_char c s). { cbn [receive]. rewrite N'. unfold telnet. rewrite T. replace (c =? 255) with false by lia. reflexivity. }
    rewrite E. destruct (push_char_q c s Q N) as (Q1 & E1 & F1 & C1 & T1 & _).
    split; [exact Q1|]. split; [rewrite E1, got_gets; reflexivity|]. split; [congruence|]. split; [congruence|]. apply BI; auto.
  - assert (E : receive [255; 255] s = set_tn T_NORM (push_char 255 (set_tn T_IAC s))).
    { cbn [receive]. rewrite N'. rewrite TI. change (c_ilen (set_tn T_IAC s)) with (c_ilen s). rewrite N'. reflexivity. }
    rewrite E. destruct (push_char_q 255 (set_tn T_IAC s) Q N) as (Q1 & E1 & F1 & C1 & T1 & _).
    split; [exact Q1|]. split; [change (queue (push_char 255 (set_tn T_IAC s)) = queue s ++ gets (c_iflg s) [255]); rewrite E1, got_gets; reflexivity|].
    split; [reflexivity|]. split; [exact F1|]. apply (BI (set_tn T_IAC s) 255); auto.
  - assert (E : receive [255; 243] s = set_tn T_NORM (set_tn T_IAC s)).
    { cbn [receive]. rewrite N'. rewrite TI. change (c_ilen (set_tn T_IAC s)) with (c_ilen s). rewrite N'. reflexivity. }
    rewrite E. apply K; reflexivity || exact SQ.
  - assert (E : exists x, receive [255; v; o] s = set_tn T_NORM (set_tn x (set_tn T_IAC s))).
    { cbn [receive]. rewrite N'. rewrite TI. change (c_ilen (set_tn T_IAC s)) with (c_ilen s). rewrite N'.
      assert (V : v = 251 \/ v = 252 \/ v = 253 \/ v = 254) by lia.
      destruct V as [-> | [-> | [-> | ->]]]; [exists T_WILL|exists T_WONT|exists T_SKIP|exists T_SKIP]; match goal with |- context[telnet ?v (set_tn T_IAC s)] => match goal with |- context[set_tn ?x (set_tn T_IAC s)] => change (telnet v (set_tn T_IAC s)) with (set_tn x (set_tn T_IAC s)); change (c_ilen (set_tn x (set_tn T_IAC s))) with (c_ilen s) end end; rewrite N'; reflexivity. }
    destruct E as [x E]. rewrite E. apply K; reflexivity || exact SQ.
Qed.
Lemma receive_full l s : 256 <= c_ilen s -> receive l s = s.
Proof. intros H. destruct l; [reflexivity|]. cbn [receive]. replace (c_ilen s <? 256) with false by lia. reflexivity. Qed.
Lemma units_q us : forall s, Forall unit_ok us -> queue_ok s -> c_tn s = T_NORM ->
  let s' := receive (concat (map bytes_of us)) s in
  queue_ok s' /\ queue s' = firstn 256 (queue s ++ gets (c_iflg s) (concat (map chars_of us))) /\ c_iflg s' = c_iflg s /\
  ((length (queue s ++ gets (c_iflg s) (concat (map chars_of us))) < 256)%nat -> c_tn s' = T_NORM /\ bits_in s s' (concat (map chars_of us))).
Proof.
  induction us as [|u us IH]; intros s F Q T; cbn [map concat].
  - cbn [receive]. assert (G : gets (c_iflg s) [] = []) by (unfold gets; destruct (c_iflg s); reflexivity). rewrite G, app_nil_r.
    split; [exact Q|]. split; [symmetry; apply firstn_all2; pose proof (queue_len s Q); destruct Q as (_ & _ & N & _); lia|]. split; [reflexivity|].
    intros _. split; [exact T|apply bits_nil; reflexivity].
  - inversion F as [|? ? U F']; subst. rewrite receive_app. pose proof (queue_len s Q) as L. assert (GA : gets (c_iflg s) (chars_of u ++ concat (map chars_of us)) = gets (c_iflg s) (chars_of u) ++ gets (c_iflg s) (concat (map chars_of us))).
    { unfold gets. destruct (c_iflg s); [|reflexivity]. apply filter_app. }
    destruct (Z_lt_dec (c_ilen s) 256) as [N|N].
    + destruct (unit_q u s U Q T N) as (Q1 & E1 & T1 & F1 & B1). destruct (IH _ F' Q1 T1) as (Q2 & E2 & F2 & B2).
      split; [exact Q2|]. rewrite E2, E1, F1, GA, app_assoc. split; [reflexivity|]. split; [congruence|]. rewrite E1, F1 in B2. intros LL. destruct (B2 LL) as [T2 (A1 & A2 & A3)].
      split; [exact T2|]. destruct B1 as (D1 & D2 & D3). unfold bits_in. rewrite !existsb_app, A1, A2, A3, D1, D2, D3, F1. rewrite !andb_orb_distrib_r, !orb_assoc. repeat split.
    + destruct Q as (Q0 & Q1 & Q2 & Q3). rewrite (receive_full (bytes_of u)), receive_full by lia. split; [repeat split; try assumption; lia|]. split; [rewrite firstn_full by lia; reflexivity|]. split; [reflexivity|].
      rewrite app_length. lia.
Qed.
