(** Printing and moving the paper. *)
From Verif Require Import P1443.Spec.

Lemma len_e2a : length ebcdic_to_ascii = 256%nat. Proof. vm_compute. reflexivity. Qed.
Lemma tab_nth t i : 0 <= i < Z.of_nat (length t) -> tab t i = Ok (nth (Z.to_nat i) t 0).
Proof.
  intros H. destruct (tab_ok t i H) as [v E]. rewrite E. unfold tab in E. destruct (i <? 0); [discriminate|].
  destruct (nth_error t (Z.to_nat i)) eqn:F; [|discriminate]. injection E as <-. apply nth_error_nth with (d := 0) in F. rewrite F. reflexivity.
Qed.
Lemma conv_glyph b : is_byte b -> conv b = Ok (glyph b).
Proof. intros H. unfold conv, glyph. rewrite tab_nth by (rewrite len_e2a; exact H). reflexivity. Qed.
Lemma convs_glyph l : Forall is_byte l -> convs l = Ok (map glyph l).
Proof. induction l as [|b l IH]; intros H; [reflexivity|]. inversion H; subst. cbn [convs]. rewrite conv_glyph by assumption. cbn. rewrite IH by assumption. reflexivity. Qed.
Lemma trim_le l i : (trim l i <= i)%nat.
Proof. induction i as [|i IH]; [constructor|]. cbn [trim]. destruct (nth (S i) l 32 =? 32); lia. Qed.
Lemma trim_blank l i j : (trim l i < j <= i)%nat -> nth j l 32 = 32.
Proof.
  induction i as [|i IH]; [cbn; lia|]. cbn [trim]. destruct (nth (S i) l 32 =? 32) eqn:E; intros H; [|lia].
  destruct (Nat.eq_dec j (S i)) as [->|N]; [apply Z.eqb_eq; exact E|apply IH; lia].
Qed.
Lemma trim_last l i : trim l i <> O -> nth (trim l i) l 32 <> 32.
Proof. induction i as [|i IH]; [cbn; congruence|]. cbn [trim]. destruct (nth (S i) l 32 =? 32) eqn:E; intros H; [auto|]. apply Z.eqb_neq. exact E. Qed.
Lemma all_blank (l : list Z) : (forall j, (j < length l)%nat -> nth j l 32 = 32) -> l = repeat 32 (length l).
Proof.
  induction l as [|x l IH]; intros H; [reflexivity|]. cbn [length repeat]. f_equal; [exact (H O ltac:(cbn; lia))|].
  apply IH. intros j J. exact (H (S j) ltac:(cbn; lia)).
Qed.
Lemma nth_skipn_ {A} (l : list A) n j d : nth j (skipn n l) d = nth (n + j) l d.
Proof. revert l. induction n as [|n IH]; intros l; [reflexivity|]. destruct l as [|x l]; [destruct j; reflexivity|]. cbn [skipn Nat.add nth]. apply IH. Qed.
Definition cut (l : list Z) : list Z := firstn (match length l with O => O | S j => S (trim l j) end) l.
Lemma cut_trimmed l : trimmed l (cut l).
Proof.
  unfold cut. destruct (length l) as [|j] eqn:L.
  - destruct l; [|discriminate]. split; [exists O; reflexivity|]. split; [congruence|]. cbn. intros q H. congruence.
  - pose proof (trim_le l j) as T. set (n := trim l j) in *.
    assert (LF : length (firstn (S n) l) = S n) by (rewrite firstn_length; lia).
    split; [|split].
    + exists (length (skipn (S n) l)). rewrite <- (all_blank (skipn (S n) l)); [symmetry; apply firstn_skipn|].
      intros k K. rewrite skipn_length in K. rewrite nth_skipn_. apply (trim_blank l j). fold n. lia.
    + intros _ E. rewrite E in LF. discriminate.
    + intros q _ E. destruct n as [|m] eqn:N.
      * apply (f_equal (@length Z)) in E. rewrite LF, app_length in E. cbn in E. destruct q; [reflexivity|cbn in E; lia].
      * exfalso. assert (Q : length q = S m) by (apply (f_equal (@length Z)) in E; rewrite LF, app_length in E; cbn in E; lia).
        assert (X : nth (S m) l 32 = 32).
        { rewrite <- (firstn_skipn (S (S m)) l), app_nth1 by (rewrite LF; lia). rewrite E, app_nth2 by lia. rewrite Q, Nat.sub_diag. reflexivity. }
        apply (trim_last l j); fold n; rewrite N; [discriminate|exact X].
Qed.
(** The line without its blanks is unique. *)
Lemma repeat_app_last k : repeat 32 (S k) = repeat 32 k ++ [32].
Proof. induction k as [|k IH]; [reflexivity|]. cbn [repeat app] in *. rewrite IH. reflexivity. Qed.
Lemma trimmed_unique l p q : trimmed l p -> trimmed l q -> p = q.
Proof.
  assert (W : forall l p q, trimmed l p -> trimmed l q -> (length p <= length q)%nat -> p = q).
  { clear. intros l p q [[k K] [Np Lp]] [[m M] [Nq Lq]] H. subst l. assert (E : p = q \/ exists j, q = p ++ repeat 32 (S j)).
    { assert (X : exists r, q = p ++ r /\ repeat 32 k = r ++ repeat 32 m).
      { clear - M H. revert q M H. induction p as [|x p IH]; intros q M H; [exists q; split; [reflexivity|exact M]|].
        destruct q as [|y q]; [cbn in H; lia|]. cbn in M. injection M as -> M. destruct (IH q M ltac:(cbn in H; lia)) as [r [-> R]]. exists r. split; [reflexivity|exact R]. }
      destruct X as [r [-> R]]. destruct r as [|y r]; [left; rewrite app_nil_r; reflexivity|right]. exists (length r). f_equal.
      assert (B : forall z, In z (y :: r) -> z = 32).
      { intros z I. apply (repeat_spec k 32 z). rewrite R. apply in_or_app. left. exact I. }
      clear -B. cbn [repeat]. f_equal; [apply B; left; reflexivity|]. assert (C : forall z, In z r -> z = 32) by (intros z I; apply B; right; exact I). clear B.
      induction r as [|z r IH]; [reflexivity|]. cbn. f_equal; [apply C; left; reflexivity|apply IH; intros w I; apply C; right; exact I]. }
    destruct E as [E|[j ->]]; [exact E|]. exfalso. rewrite repeat_app_last, app_assoc in Lq.
    assert (Q : p ++ repeat 32 j = []). { apply Lq; [|reflexivity]. destruct (p ++ repeat 32 j); discriminate. }
    apply app_eq_nil in Q. destruct Q as [-> Q]. destruct j; [|discriminate].
    apply Np; [|reflexivity]. rewrite M. cbn. discriminate. }
  intros P Q. destruct (Nat.le_ge_cases (length p) (length q)); [apply (W l p q)|symmetry; apply (W l q p)]; assumption.
Qed.

(** The text. *)
Lemma line_text_ok s : 0 <= p_col s <= 144 -> Forall is_byte (p_buf s) -> line_text s = Ok (cut (map glyph (firstn (Z.to_nat (p_col s)) (p_buf s)))).
Proof.
  intros H F. unfold line_text. replace ((p_col s <? 0) || (144 <? p_col s)) with false by (symmetry; apply orb_false_iff; split; apply Z.ltb_ge; lia).
  rewrite convs_glyph; [reflexivity|]. apply Forall_forall. intros x I. rewrite Forall_forall in F. apply F. rewrite <- (firstn_skipn (Z.to_nat (p_col s)) (p_buf s)). apply in_or_app. left. exact I.
Qed.

(** The carriage tape. *)
Lemma tape_holes c i : 0 <= c < 16 -> 0 <= i < 66 -> bit (nth (Z.to_nat i) fcb 0) (Z.shiftr 4096 c) = (hole c =? i + 1).
Proof.
  intros C I. pose proof (sweep2 16 66 (fun c i => Bool.eqb (bit (nth (Z.to_nat i) fcb 0) (Z.shiftr 4096 c)) (hole c =? i + 1))
    ltac:(vm_compute; reflexivity) c i C I) as S. apply eqb_prop in S. exact S.
Qed.
Lemma hole_range c : 0 <= c < 16 -> 0 <= hole c <= 63.
Proof. intros C. pose proof (sweep 16 (fun c => (0 <=? hole c) && (hole c <=? 63)) ltac:(vm_compute; reflexivity) c C) as S. apply andb_true_iff in S. lia. Qed.
Lemma tab_fcb i : 0 <= i < 66 -> tab fcb i = Ok (nth (Z.to_nat i) fcb 0).
Proof. intros H. apply tab_nth. exact H. Qed.
Lemma tab_fcb_out i : 66 <= i -> tab fcb i = UB.
Proof. intros H. unfold tab. replace (i <? 0) with false by lia. replace (nth_error fcb (Z.to_nat i)) with (@None Z); [reflexivity|]. symmetry. apply nth_error_None. cbn. lia. Qed.

Lemma find_ok c s : 0 <= c < 16 -> forall n fuel i l r f, (n < fuel)%nat -> p_row s < i -> 0 <= i -> hole c = i + Z.of_nat n + 1 ->
  find_chan fuel (Z.shiftr 4096 c) i s l r f = Ok (s, i + Z.of_nat n, l + Z.of_nat n, r + Z.of_nat n, f).
Proof.
  intros C. pose proof (hole_range c C) as HR. induction n as [|n IH]; intros fuel i l r f F R I H; (destruct fuel as [|fuel]; [lia|]); cbn [find_chan];
    rewrite tab_fcb by lia; cbn [bind]; pose proof (tape_holes c i C ltac:(lia)) as T; unfold bit in T.
  - replace (Z.of_nat 0) with 0 in * by reflexivity. replace (hole c =? i + 1) with true in T by lia. destruct (Z.land _ _ =? 0); [discriminate|]. cbn. rewrite !Z.add_0_r. reflexivity.
  - replace (hole c =? i + 1) with false in T by lia. destruct (Z.land _ _ =? 0); [|discriminate]. replace (p_row s =? i) with false by lia. cbn [negb andb].
    replace (lpp <? i) with false by (unfold lpp; lia). cbn [bind]. rewrite IH by lia.
    replace (i + 1 + Z.of_nat n) with (i + Z.of_nat (S n)) by lia. replace (l + 1 + Z.of_nat n) with (l + Z.of_nat (S n)) by lia. replace (r + 1 + Z.of_nat n) with (r + Z.of_nat (S n)) by lia. reflexivity.
Qed.
Lemma find_ub c s : 0 <= c < 16 -> forall n fuel i l r f, (n < fuel)%nat -> p_row s < i -> 0 <= i -> i + Z.of_nat n = 66 -> hole c <= i ->
  find_chan fuel (Z.shiftr 4096 c) i s l r f = UB.
Proof.
  intros C. induction n as [|n IH]; intros fuel i l r f F R I E H; (destruct fuel as [|fuel]; [lia|]); cbn [find_chan].
  - rewrite tab_fcb_out by lia. reflexivity.
  - rewrite tab_fcb by lia. cbn [bind]. pose proof (tape_holes c i C ltac:(lia)) as T. unfold bit in T.
    replace (hole c =? i + 1) with false in T by lia. destruct (Z.land _ _ =? 0); [|discriminate]. replace (p_row s =? i) with false by lia. cbn [negb andb].
    replace (lpp <? i) with false by (unfold lpp; lia). cbn [bind]. apply IH; lia.
Qed.
Lemma emit_ok l s f : p_file s = Some f -> emit l s = Ok (set_file (Some (f ++ l)) s).
Proof. intros H. unfold emit. rewrite H. reflexivity. Qed.
Lemma emit_none l s : p_file s = None -> emit l s = UB.
Proof. intros H. unfold emit. rewrite H. reflexivity. Qed.
Lemma skip_lines_ok : forall n s f, p_file s = Some f -> p_row s + Z.of_nat n <= 66 ->
  skip_lines n s = Ok (set_row (p_row s + Z.of_nat n) (set_file (Some (f ++ newlines n)) s)).
Proof.
  induction n as [|n IH]; intros s f F R.
  - cbn. rewrite Z.add_0_r, app_nil_r. destruct s; cbn in *; subst. reflexivity.
  - cbn [skip_lines]. rewrite (emit_ok _ _ _ F). cbn [bind]. cbn [p_row set_file set_row]. replace (lpp <? p_row s + 1) with false by (unfold lpp; lia). cbn [bind].
    rewrite (IH _ (f ++ CRLF)); [|reflexivity|cbn [p_row set_row set_file]; lia]. cbn [p_row set_row set_file]. unfold newlines. cbn [repeat concat]. rewrite <- app_assoc.
    replace (p_row s + 1 + Z.of_nat n) with (p_row s + Z.of_nat (S n)) by lia. destruct s; reflexivity.
Qed.
Lemma skip_lines_none n s : p_file s = None -> skip_lines (S n) s = UB.
Proof. intros F. cbn [skip_lines]. rewrite emit_none by exact F. reflexivity. Qed.

(** Spacing. *)
Fixpoint crosses (n : nat) (row : Z) (x : Z) : bool := match n with O => false | S n => (row =? x) || crosses n (row + 1) x end.
Lemma space_ok : forall n s f r a b, p_file s = Some f -> 0 <= p_row s -> p_row s + Z.of_nat n <= 66 ->
  space n s r a b = Ok (set_row (p_row s + Z.of_nat n) (set_file (Some (f ++ newlines n)) s), r + Z.of_nat n, a || crosses n (p_row s) 62, b || crosses n (p_row s) 60).
Proof.
  induction n as [|n IH]; intros s f r a b F R R'.
  - cbn. rewrite !Z.add_0_r, app_nil_r, !orb_false_r. destruct s; cbn in *; subst. reflexivity.
  - cbn [space]. rewrite (emit_ok _ _ _ F). cbn [bind]. cbn [p_row set_file set_row]. rewrite tab_fcb by lia. cbn [bind].
    replace (lpp <? p_row s + 1) with false by (unfold lpp; lia).
    rewrite (IH _ (f ++ CRLF)); [|reflexivity|cbn [p_row set_row set_file]; lia|cbn [p_row set_row set_file]; lia]. cbn [p_row set_row set_file].
    pose proof (tape_holes 9 (p_row s) ltac:(lia) ltac:(lia)) as T9. pose proof (tape_holes 12 (p_row s) ltac:(lia) ltac:(lia)) as T12.
    change (Z.shiftr 4096 9) with 8 in T9. change (Z.shiftr 4096 12) with 1 in T12. rewrite T9, T12. cbn [hole].
    unfold newlines. cbn [repeat concat crosses]. rewrite <- !app_assoc.
    replace (63 =? p_row s + 1) with (p_row s =? 62) by lia. replace (61 =? p_row s + 1) with (p_row s =? 60) by lia.
    rewrite !orb_assoc. replace (p_row s + 1 + Z.of_nat n) with (p_row s + Z.of_nat (S n)) by lia. replace (r + 1 + Z.of_nat n) with (r + Z.of_nat (S n)) by lia. destruct s; reflexivity.
Qed.
Lemma space_ub : forall n s f r a b, p_file s = Some f -> 0 <= p_row s -> p_row s + Z.of_nat n > 66 -> p_row s <= 66 -> space n s r a b = UB.
Proof.
  induction n as [|n IH]; intros s f r a b F R R' M; [lia|]. cbn [space]. rewrite (emit_ok _ _ _ F). cbn [bind]. cbn [p_row set_file set_row].
  destruct (Z_lt_dec (p_row s) 66) as [L|L]; [|rewrite tab_fcb_out by lia; reflexivity].
  rewrite tab_fcb by lia. cbn [bind]. replace (lpp <? p_row s + 1) with false by (unfold lpp; lia).
  apply (IH _ (f ++ CRLF)); cbn [p_row set_row set_file]; try reflexivity; lia.
Qed.

(** print_line in pieces. *)
Definition texted (w : bool) (s : dev) (f : list Z) : dev :=
  if w then set_buf (repeat 64 144) (set_file (Some (f ++ cut (map glyph (firstn (Z.to_nat (p_col s)) (p_buf s))))) s) else s.
Definition text (w : bool) (s : dev) : list Z := if w then cut (map glyph (firstn (Z.to_nat (p_col s)) (p_buf s))) else [].
Definition moved (w : bool) (s : dev) (f : list Z) (n : nat) : dev :=
  set_row (p_row s + Z.of_nat n) (set_file (Some (f ++ text w s ++ newlines n)) (if w then set_buf (repeat 64 144) s else s)).
Definition checked (w : bool) (s : dev) (n : nat) (s' : dev) : dev :=
  let s' := if w && crosses n (p_row s) 62 then or_sense S_CHAN9 s' else s' in
  if w && crosses n (p_row s) 60 then or_status SNS_UNITEXP s' else s'.
Definition wr (c : Z) : bool := Z.land c 7 =? 1.
Definition lines_of (c : Z) : Z := Z.land (Z.shiftr c 3) 31.
(** A command that is not a write has its low three bits equal to 3 when it moves the paper; then no check is raised. *)
Definition prints (c : Z) : Prop := Z.land c 7 = 1 \/ Z.land c 7 = 3.
Lemma prints_wr c : prints c -> (Z.land c 3 =? 1) = wr c.
Proof.
  unfold prints, wr. intros H. replace (Z.land c 3) with (Z.land (Z.land c 7) 3) by (rewrite <- Z.land_assoc; reflexivity).
  destruct H as [-> | ->]; reflexivity.
Qed.
Lemma lines_range c : 0 <= lines_of c < 32.
Proof. unfold lines_of. change 31 with (Z.ones 5). rewrite Z.land_ones by lia. apply Z.mod_pos_bound. lia. Qed.
Lemma land15_range c : 0 <= Z.land c 15 < 16.
Proof. change 15 with (Z.ones 4). rewrite Z.land_ones by lia. apply Z.mod_pos_bound. lia. Qed.

Lemma print_text s (k : dev * Z -> res (dev * Z)) f : ok_buf s -> p_file s = Some f ->
  bind (if Z.land (p_cmd s) 7 =? 1 then let* t := line_text s in let* s := emit t s in Ok (set_buf (repeat 64 144) s, 11) else Ok (s, 0)) k
  = k (texted (wr (p_cmd s)) s f, if wr (p_cmd s) then 11 else 0).
Proof.
  intros [B1 B2] F. unfold wr, texted. destruct (Z.land (p_cmd s) 7 =? 1) eqn:E; [|reflexivity].
  rewrite line_text_ok by assumption. cbn [bind]. rewrite (emit_ok _ _ _ F). reflexivity.
Qed.
Lemma print_text_none s (k : dev * Z -> res (dev * Z)) : ok_buf s -> p_file s = None ->
  bind (if Z.land (p_cmd s) 7 =? 1 then let* t := line_text s in let* s := emit t s in Ok (set_buf (repeat 64 144) s, 11) else Ok (s, 0)) k
  = if wr (p_cmd s) then UB else k (s, 0).
Proof.
  intros [B1 B2] F. unfold wr. destruct (Z.land (p_cmd s) 7 =? 1) eqn:E; [|reflexivity].
  rewrite line_text_ok by assumption. cbn [bind]. rewrite (emit_none _ _ F). reflexivity.
Qed.
Lemma texted_file w s f : p_file s = Some f -> p_file (texted w s f) = Some (f ++ text w s).
Proof. intros F. unfold texted, text. destruct w; cbn; [reflexivity|rewrite app_nil_r; exact F]. Qed.
Lemma texted_row w s f : p_row (texted w s f) = p_row s. Proof. destruct w; reflexivity. Qed.
Lemma texted_cmd w s f : p_cmd (texted w s f) = p_cmd s. Proof. destruct w; reflexivity. Qed.

Lemma print_space s f : ok_buf s -> prints (p_cmd s) -> p_file s = Some f -> 0 <= p_row s -> lines_of (p_cmd s) < 4 -> p_row s + lines_of (p_cmd s) <= 66 ->
  let w := wr (p_cmd s) in let n := Z.to_nat (lines_of (p_cmd s)) in
  print_line s = Ok (checked w s n (moved w s f n), (if w then 11 else 0) + 20 + 5 * lines_of (p_cmd s)).
Proof.
  intros B P F R L M w n. unfold print_line. rewrite (print_text s _ f B F). fold w. cbv beta iota zeta. fold (lines_of (p_cmd s)). fold n.
  replace (lines_of (p_cmd s) <? 4) with true by lia. pose proof (lines_range (p_cmd s)) as LR.
  rewrite (space_ok n _ (f ++ text w s)); [|apply texted_file; exact F|rewrite texted_row; lia|rewrite texted_row; unfold n; lia].
  cbn [bind]. rewrite texted_row. cbn [p_row set_row].
  replace (lpp <? p_row s + Z.of_nat n) with false by (unfold lpp, n; lia). cbn [bind].
  change (p_cmd (set_row (p_row s + Z.of_nat n) (set_file (Some ((f ++ text w s) ++ newlines n)) (texted w s f)))) with (p_cmd (texted w s f)). rewrite texted_cmd.
  replace (0 + Z.of_nat n) with (lines_of (p_cmd s)) by (unfold n; lia). cbn [orb].
  assert (Q : set_row (p_row s + Z.of_nat n) (set_file (Some ((f ++ text w s) ++ newlines n)) (texted w s f)) = moved w s f n).
  { unfold moved. rewrite <- app_assoc. destruct w; reflexivity. }
  rewrite Q. rewrite (prints_wr (p_cmd s) P). fold w. unfold checked. rewrite (andb_comm w), (andb_comm w).
  destruct (crosses n (p_row s) 62 && w); cbn [p_cmd or_sense set_sense];
    (replace (p_cmd (moved w s f n)) with (p_cmd s) by (destruct w; reflexivity));
    rewrite (prints_wr (p_cmd s) P); fold w; reflexivity.
Qed.
Lemma print_skip s f : ok_buf s -> p_file s = Some f -> 0 <= p_row s -> 4 <= lines_of (p_cmd s) ->
  let c := Z.land (lines_of (p_cmd s)) 15 in let w := wr (p_cmd s) in let n := Z.to_nat (hole c - line s - 1) in
  line s < hole c -> print_line s = Ok (moved w s f n, Z.of_nat n).
Proof.
  intros B F R L c w n H. unfold print_line. rewrite (print_text s _ f B F). fold w. cbv beta iota zeta. fold (lines_of (p_cmd s)). fold c.
  replace (lines_of (p_cmd s) <? 4) with false by lia. pose proof (land15_range (lines_of (p_cmd s))) as CR. fold c in CR. pose proof (hole_range c CR) as HR.
  unfold line in *. rewrite texted_row. rewrite (find_ok c _ CR n) by (rewrite ?texted_row; unfold n; lia). cbn [bind].
  rewrite tab_fcb by (unfold n; lia). cbn [bind]. rewrite tape_holes by (unfold n; lia).
  replace (hole c =? p_row s + 1 + Z.of_nat n + 1) with true by (unfold n; lia).
  replace (Z.to_nat (0 + Z.of_nat n)) with n by lia. rewrite (skip_lines_ok n _ (f ++ text w s)); [|apply texted_file; exact F|rewrite texted_row; unfold n; lia].
  cbn [bind]. rewrite texted_row. replace (0 + Z.of_nat n) with (Z.of_nat n) by lia. unfold moved. rewrite <- app_assoc. destruct w; reflexivity.
Qed.
Lemma find_out s mask fuel i l r f : 66 <= i -> find_chan (S fuel) mask i s l r f = UB.
Proof. intros H. cbn [find_chan]. rewrite tab_fcb_out by exact H. reflexivity. Qed.
Lemma print_no_hole s f : ok_buf s -> p_file s = Some f -> 0 <= p_row s -> 4 <= lines_of (p_cmd s) ->
  ~ line s < hole (Z.land (lines_of (p_cmd s)) 15) -> print_line s = UB.
Proof.
  intros B F R L H. unfold print_line. rewrite (print_text s _ f B F). set (w := wr (p_cmd s)). cbv beta iota zeta. fold (lines_of (p_cmd s)).
  set (c := Z.land (lines_of (p_cmd s)) 15) in *. replace (lines_of (p_cmd s) <? 4) with false by lia. pose proof (land15_range (lines_of (p_cmd s))) as CR. fold c in CR.
  unfold line in *. rewrite texted_row. destruct (Z_lt_dec (p_row s) 65) as [Q|Q].
  - rewrite (find_ub c _ CR (Z.to_nat (66 - (p_row s + 1)))) by (rewrite ?texted_row; lia). reflexivity.
  - change 200%nat with (S 199). rewrite find_out by lia. reflexivity.
Qed.
Lemma print_undefined s : ok_buf s -> prints (p_cmd s) -> 0 <= p_row s <= 66 ->
  (undefined_print s -> print_line s = UB) /\ (~ undefined_print s -> exists s' t, print_line s = Ok (s', t)).
Proof.
  intros B P R. unfold undefined_print. fold (lines_of (p_cmd s)). pose proof (lines_range (p_cmd s)) as LR.
  destruct (p_file s) as [f|] eqn:F.
  - destruct (Z_lt_dec (lines_of (p_cmd s)) 4) as [L|L].
    + destruct (Z_le_dec (p_row s + lines_of (p_cmd s)) 66) as [M|M].
      * split; intros H; [|eexists; eexists; apply (print_space s f B P F); lia].
        exfalso. unfold line in H. destruct H as [[H _]|[H|H]]; [discriminate|lia|lia].
      * split; intros H; [|exfalso; apply H; right; left; unfold line; lia].
        unfold print_line. rewrite (print_text s _ f B F). cbv beta iota zeta. fold (lines_of (p_cmd s)). replace (lines_of (p_cmd s) <? 4) with true by lia.
        rewrite (space_ub _ _ (f ++ text (wr (p_cmd s)) s)); [reflexivity|apply texted_file; exact F|rewrite texted_row; lia..].
    + destruct (Z_lt_dec (line s) (hole (Z.land (lines_of (p_cmd s)) 15))) as [M|M].
      * split; intros H; [|eexists; eexists; apply (print_skip s f B F); [lia|lia|exact M]].
        exfalso. destruct H as [[H _]|[H|H]]; [discriminate|lia|]. apply H. exact M.
      * split; intros H; [apply (print_no_hole s f B F); [lia|lia|exact M]|]. exfalso. apply H. right; right. split; [lia|exact M].
  - unfold print_line. rewrite (print_text_none s _ B F). unfold wr. destruct (Z.land (p_cmd s) 7 =? 1) eqn:W.
    { split; intros H; [reflexivity|]. exfalso. apply H. left. split; [reflexivity|left; lia]. }
    cbv beta iota zeta. fold (lines_of (p_cmd s)). assert (NW : Z.land (p_cmd s) 7 <> 1) by lia.
    destruct (Z_lt_dec (lines_of (p_cmd s)) 4) as [L|L].
    + replace (lines_of (p_cmd s) <? 4) with true by lia. destruct (Z_lt_dec 0 (lines_of (p_cmd s))) as [M|M].
      * split; intros H; [|exfalso; apply H; left; split; [reflexivity|right; left; lia]].
        destruct (Z.to_nat (lines_of (p_cmd s))) eqn:N; [lia|]. cbn [space]. rewrite emit_none by exact F. reflexivity.
      * split; intros H; [exfalso; destruct H as [[_ [H|[H|H]]]|[H|H]]; lia|].
        replace (Z.to_nat (lines_of (p_cmd s))) with O by lia. cbn [space bind]. replace (lpp <? p_row s) with false by (unfold lpp; lia). cbn. eexists; eexists; reflexivity.
    + replace (lines_of (p_cmd s) <? 4) with false by lia. set (c := Z.land (lines_of (p_cmd s)) 15) in *.
      pose proof (land15_range (lines_of (p_cmd s))) as CR. fold c in CR. pose proof (hole_range c CR) as HR. unfold line in *.
      destruct (Z_lt_dec (p_row s + 1) (hole c)) as [M|M].
      * rewrite (find_ok c _ CR (Z.to_nat (hole c - (p_row s + 1) - 1))) by lia. cbn [bind]. rewrite tab_fcb by lia. cbn [bind]. rewrite tape_holes by lia.
        replace (hole c =? p_row s + 1 + Z.of_nat (Z.to_nat (hole c - (p_row s + 1) - 1)) + 1) with true by lia.
        destruct (Z_lt_dec (p_row s + 1 + 1) (hole c)) as [K|K].
        -- split; intros H; [|exfalso; apply H; left; split; [reflexivity|right; right; lia]].
           destruct (Z.to_nat (0 + Z.of_nat (Z.to_nat (hole c - (p_row s + 1) - 1)))) eqn:N; [lia|]. rewrite skip_lines_none by exact F. reflexivity.
        -- split; intros H; [exfalso; destruct H as [[_ [H|[H|H]]]|[H|H]]; lia|].
           replace (Z.to_nat (0 + Z.of_nat (Z.to_nat (hole c - (p_row s + 1) - 1)))) with O by lia. cbn. eexists; eexists; reflexivity.
      * split; intros H; [|exfalso; apply H; right; right; lia].
        destruct (Z_lt_dec (p_row s) 65) as [Q|Q].
        -- rewrite (find_ub c _ CR (Z.to_nat (66 - (p_row s + 1)))) by lia. reflexivity.
        -- change 200%nat with (S 199). rewrite find_out by lia. reflexivity.
Qed.
(** What printing leaves alone, and the ranges it keeps. *)
Lemma checked_frame w s n x : same_but_print x (checked w s n x) /\ p_row (checked w s n x) = p_row x /\ p_buf (checked w s n x) = p_buf x /\ p_file (checked w s n x) = p_file x /\
  (0 <= p_sense x < 256 -> 0 <= p_sense (checked w s n x) < 256) /\ (0 <= p_status x < 256 -> 0 <= p_status (checked w s n x) < 256).
Proof.
  assert (Q : forall v, 0 <= v < 256 -> 0 <= Z.lor v 1 < 256).
  { intros v H. pose proof (sweep 256 (fun v => (0 <=? Z.lor v 1) && (Z.lor v 1 <? 256)) ltac:(vm_compute; reflexivity) v H) as S. apply andb_true_iff in S. lia. }
  unfold checked. destruct (w && crosses n (p_row s) 62), (w && crosses n (p_row s) 60); cbn; unfold same_but_print; cbn;
    (split; [repeat split|]); (split; [reflexivity|]); (split; [reflexivity|]); (split; [reflexivity|]);
    split; intros H; try exact H; exact (Q _ H).
Qed.
