(** Every cycle: what it keeps, and when it is defined. *)
From Verif Require Import P1443.Spec P1443.Proofs.

(** Moving the paper changes the file and the row only. *)
Definition pf (s s' : dev) : Prop := s' = set_row (p_row s') (set_file (p_file s') s).
Lemma pf_refl s : pf s s. Proof. unfold pf. destruct s; reflexivity. Qed.
Lemma pf_trans a b c : pf a b -> pf b c -> pf a c.
Proof. unfold pf. intros A B. rewrite B. rewrite A. destruct a, b, c; cbn. reflexivity. Qed.
Lemma emit_pf l s s' : emit l s = Ok s' -> pf s s' /\ p_row s' = p_row s.
Proof. unfold emit. destruct (p_file s) eqn:F; [|discriminate]. intros E. injection E as <-. split; [unfold pf; destruct s; reflexivity|reflexivity]. Qed.
Lemma row_pf s r : pf s (set_row r s). Proof. unfold pf. destruct s; reflexivity. Qed.
Lemma space_pf : forall n s r a b s' r' a' b', 0 <= p_row s <= 66 -> space n s r a b = Ok (s', r', a', b') -> pf s s' /\ 0 <= p_row s' <= 67.
Proof.
  induction n as [|n IH]; intros s r a b s' r' a' b' R E; cbn [space] in E.
  - injection E as <- _ _ _. split; [apply pf_refl|lia].
  - destruct (emit CRLF s) as [s1| |] eqn:E1; try discriminate. cbn [bind] in E. destruct (emit_pf _ _ _ E1) as [P1 R1].
    destruct (tab fcb (p_row s1)) as [w| |] eqn:T; try discriminate. cbn [bind] in E. cbn [p_row set_row] in E.
    destruct (lpp <? p_row s1 + 1) eqn:L; unfold lpp in L.
    + injection E as <- _ _ _. split; [apply (pf_trans _ _ _ P1), row_pf|cbn; lia].
    + apply IH in E; [|cbn; lia]. destruct E as [P R']. split; [|exact R']. apply (pf_trans _ _ _ P1). apply (pf_trans _ _ _ (row_pf _ _) P).
Qed.
Lemma find_pf : forall n m i s l r f s' i' l' r' f', find_chan n m i s l r f = Ok (s', i', l', r', f') -> pf s s' /\ p_row s' = p_row s.
Proof.
  induction n as [|n IH]; intros m i s l r f s' i' l' r' f' E; cbn [find_chan] in E; [discriminate|].
  destruct (tab fcb i) as [w| |]; try discriminate. cbn [bind] in E. destruct ((Z.land w m =? 0) && negb (p_row s =? i)).
  - destruct (lpp <? i).
    + destruct (emit (CRLF ++ [12]) s) as [s1| |] eqn:E1; try discriminate. cbn [bind] in E. apply IH in E. destruct (emit_pf _ _ _ E1) as [P1 R1]. destruct E as [P R]. split; [exact (pf_trans _ _ _ P1 P)|congruence].
    + cbn [bind] in E. apply IH in E. exact E.
  - injection E as <- _ _ _ _. split; [apply pf_refl|reflexivity].
Qed.
Lemma skip_pf : forall n s s', 0 <= p_row s <= 66 -> skip_lines n s = Ok s' -> pf s s' /\ 0 <= p_row s' <= 66.
Proof.
  induction n as [|n IH]; intros s s' R E; cbn [skip_lines] in E.
  - injection E as <-. split; [apply pf_refl|exact R].
  - destruct (emit CRLF s) as [s1| |] eqn:E1; try discriminate. cbn [bind] in E. destruct (emit_pf _ _ _ E1) as [P1 R1]. cbn [p_row set_row] in E.
    destruct (lpp <? p_row s1 + 1) eqn:L; unfold lpp in L.
    + destruct (emit [12] (set_row (p_row s1 + 1) s1)) as [s2| |] eqn:E2; try discriminate. cbn [bind] in E. destruct (emit_pf _ _ _ E2) as [P2 R2].
      apply IH in E; [|cbn; lia]. destruct E as [P R']. split; [|exact R'].
      apply (pf_trans _ _ _ P1), (pf_trans _ _ _ (row_pf s1 (p_row s1 + 1))), (pf_trans _ _ _ P2), (pf_trans _ _ _ (row_pf _ _) P).
    + cbn [bind] in E. apply IH in E; [|cbn; lia]. destruct E as [P R']. split; [|exact R']. apply (pf_trans _ _ _ P1), (pf_trans _ _ _ (row_pf _ _) P).
Qed.
Lemma pf_same s s' : pf s s' -> same_but_print s s' /\ p_sense s' = p_sense s /\ p_status s' = p_status s /\ p_buf s' = p_buf s.
Proof. unfold pf. intros ->. unfold same_but_print. cbn. repeat split. Qed.

Lemma lor_byte v m : is_byte v -> is_byte m -> is_byte (Z.lor v m).
Proof.
  intros V M. unfold is_byte. pose proof (sweep2 256 256 (fun v m => (0 <=? Z.lor v m) && (Z.lor v m <? 256)) ltac:(vm_compute; reflexivity) v m V M) as S.
  apply andb_true_iff in S. lia.
Qed.
Lemma ldiff_byte v m : is_byte v -> is_byte m -> is_byte (Z.ldiff v m).
Proof.
  intros V M. unfold is_byte. pose proof (sweep2 256 256 (fun v m => (0 <=? Z.ldiff v m) && (Z.ldiff v m <? 256)) ltac:(vm_compute; reflexivity) v m V M) as S.
  apply andb_true_iff in S. lia.
Qed.
Lemma byte_const n : (0 <=? n) && (n <? 256) = true -> is_byte n.
Proof. intros H. apply andb_true_iff in H. unfold is_byte. lia. Qed.

Record okd (s : dev) : Prop := mkOkd {
  ok_cmd : is_byte (p_cmd s); ok_status : is_byte (p_status s); ok_sense : is_byte (p_sense s); ok_row : 0 <= p_row s <= 66;
  ok_len : length (p_buf s) = 144%nat; ok_bytes : Forall is_byte (p_buf s); ok_col : 0 <= p_col s <= 120;
  ok_full : p_col s = 120 -> p_rdyd s = false /\ p_end s = true /\ p_st s <> P_DATA_I }.
Lemma okd_buf s : okd s -> ok_buf s. Proof. intros []. split; [lia|assumption]. Qed.

Lemma blanks_bytes : Forall is_byte (repeat 64 144). Proof. apply Forall_forall. intros x H. apply repeat_spec in H. subst. unfold is_byte. lia. Qed.
Lemma line_text_buf s t : line_text s = Ok t -> True. Proof. trivial. Qed.
Lemma print_frame s s' t : okd s -> print_line s = Ok (s', t) -> same_but_print s s' /\ okd s'.
Proof.
  intros O E. unfold print_line in E.
  assert (P1 : exists s1 t1, (if Z.land (p_cmd s) 7 =? 1 then let* t := line_text s in let* s := emit t s in Ok (set_buf (repeat 64 144) s, 11) else Ok (s, 0)) = Ok (s1, t1) /\
     same_but_print s s1 /\ okd s1 /\ p_row s1 = p_row s).
  { destruct (Z.land (p_cmd s) 7 =? 1).
    - destruct (line_text s) as [x| |]; try discriminate. cbn [bind] in *. destruct (emit x s) as [s1| |] eqn:E1; try discriminate. cbn [bind] in *.
      eexists; eexists. split; [reflexivity|]. destruct (emit_pf _ _ _ E1) as [P R]. apply pf_same in P. destruct P as (P & Q1 & Q2 & Q3).
      split; [exact P|]. destruct O. unfold same_but_print in P. destruct P as (A1 & A2 & A3 & A4 & A5 & A6 & A7 & A8 & A9 & A10 & A11 & A12 & A13 & A14 & A15).
      split; [|exact R]. constructor; cbn; rewrite ?A7, ?Q1, ?Q2, ?R, ?A12, ?A9, ?A10, ?A1; auto using blanks_bytes.
    - eexists; eexists. split; [reflexivity|]. split; [unfold same_but_print; repeat split|]. split; [exact O|reflexivity]. }
  destruct P1 as (s1 & t1 & E1 & P1 & O1 & R1). rewrite E1 in E. cbn [bind] in E. clear E1.
  assert (G : forall x, same_but_print s1 x -> is_byte (p_status x) -> is_byte (p_sense x) -> 0 <= p_row x <= 66 -> p_buf x = p_buf s1 -> same_but_print s x /\ okd x).
  { intros x P2 S1 S2 RX BX. destruct O1.
    destruct P2 as (A1 & A2 & A3 & A4 & A5 & A6 & A7 & A8 & A9 & A10 & A11 & A12 & A13 & A14 & A15).
    destruct P1 as (B1 & B2 & B3 & B4 & B5 & B6 & B7 & B8 & B9 & B10 & B11 & B12 & B13 & B14 & B15).
    split; [unfold same_but_print; repeat split; congruence|]. constructor; rewrite ?BX, ?A7, ?A12, ?A9, ?A10, ?A1; assumption. }
  destruct O1 as [OC OS OE OR OL OB OC2 OF].
  destruct (Z.land (Z.shiftr (p_cmd s) 3) 31 <? 4).
  - destruct (space (Z.to_nat (Z.land (Z.shiftr (p_cmd s) 3) 31)) s1 0 false false) as [[[[s2 r2] a2] b2]| |] eqn:E2; try discriminate. cbn [bind] in E.
    apply space_pf in E2; [|exact OR]. destruct E2 as [P2 R2].
    assert (E3 : exists s3, (if lpp <? p_row s2 then let* s := (if r2 =? 0 then emit CRLF s2 else Ok s2) in let* s := emit [12] s in Ok (set_row 0 s) else Ok s2) = Ok s3 /\ pf s1 s3 /\ 0 <= p_row s3 <= 66).
    { destruct (lpp <? p_row s2) eqn:L; unfold lpp in L.
      - assert (X : exists y, (if r2 =? 0 then emit CRLF s2 else Ok s2) = Ok y /\ pf s1 y).
        { destruct (r2 =? 0); [|eexists; split; [reflexivity|exact P2]]. destruct (emit CRLF s2) as [y| |] eqn:EY; try discriminate.
          eexists. split; [reflexivity|]. destruct (emit_pf _ _ _ EY) as [PY _]. exact (pf_trans _ _ _ P2 PY). }
        destruct X as (y & EY & PY). rewrite EY in *. cbn [bind] in *. destruct (emit [12] y) as [z| |] eqn:EZ; try discriminate. cbn [bind] in *.
        eexists. split; [reflexivity|]. destruct (emit_pf _ _ _ EZ) as [PZ _]. split; [apply (pf_trans _ _ _ PY), (pf_trans _ _ _ PZ), row_pf|cbn; lia].
      - eexists. split; [reflexivity|]. split; [exact P2|lia]. }
    destruct E3 as (s3 & E3 & P3 & R3). rewrite E3 in E. cbn [bind] in E. clear E3. apply pf_same in P3. destruct P3 as (P3 & Q1 & Q2 & Q3).
    injection E as <- _.
    assert (X1 : is_byte 1) by (apply byte_const; reflexivity).
    assert (Y1 : is_byte (p_sense s3)) by (rewrite Q1; assumption). assert (Y2 : is_byte (p_status s3)) by (rewrite Q2; assumption).
    repeat match goal with |- context[if ?b then _ else _] => destruct b end; apply G; try exact P3; try exact R3; try exact Q3; cbn; auto using lor_byte;
      (apply lor_byte; [assumption|exact X1]).
  - destruct (find_chan 200 (Z.shiftr 4096 (Z.land (Z.land (Z.shiftr (p_cmd s) 3) 31) 15)) (p_row s1 + 1) s1 0 0 false) as [[[[[s2 i2] l2] r2] f2]| |] eqn:E2; try discriminate. cbn [bind] in E.
    apply find_pf in E2. destruct E2 as [P2 R2].
    set (s3 := if f2 then set_row 0 s2 else s2) in *. assert (P3 : pf s1 s3 /\ 0 <= p_row s3 <= 66).
    { unfold s3. destruct f2; cbn; (split; [|lia]); [apply (pf_trans _ _ _ P2), row_pf|exact P2]. }
    clearbody s3. destruct (tab fcb i2) as [w| |]; try discriminate. cbn [bind] in E.
    assert (P4 : exists s4, (if bit w (Z.shiftr 4096 (Z.land (Z.land (Z.shiftr (p_cmd s) 3) 31) 15)) then skip_lines (Z.to_nat r2) s3 else Ok s3) = Ok s4 /\ pf s1 s4 /\ 0 <= p_row s4 <= 66).
    { destruct (bit w _); [|eexists; split; [reflexivity|exact P3]]. destruct (skip_lines (Z.to_nat r2) s3) as [s4| |] eqn:E4; try discriminate.
      eexists. split; [reflexivity|]. destruct P3 as [P3 R3]. apply skip_pf in E4; [|exact R3]. destruct E4 as [P4 R4]. split; [exact (pf_trans _ _ _ P3 P4)|exact R4]. }
    destruct P4 as (s4 & E4 & P4 & R4). rewrite E4 in E. cbn [bind] in E. injection E as <- _. apply pf_same in P4. destruct P4 as (P4 & Q1 & Q2 & Q3).
    apply G; [exact P4|rewrite Q2; assumption|rewrite Q1; assumption|exact R4|exact Q3].
Qed.
Lemma undefined_dec s : undefined_print s \/ ~ undefined_print s.
Proof.
  unfold undefined_print. set (l := Z.land (Z.shiftr (p_cmd s) 3) 31). set (k := Z.land (p_cmd s) 7). set (h := hole (Z.land l 15)). unfold line.
  destruct (p_file s) as [f|].
  - destruct (Z_lt_dec 0 l), (Z_lt_dec l 4), (Z_lt_dec 66 (p_row s + 1 + l - 1)), (Z_lt_dec (p_row s + 1) h); try (left; right; lia);
      (right; intros [[H _]|H]; [discriminate H|lia]).
  - destruct (Z.eq_dec k 1); [left; left; split; [reflexivity|left; assumption]|].
    destruct (Z_lt_dec 0 l), (Z_lt_dec l 4), (Z_lt_dec 66 (p_row s + 1 + l - 1)), (Z_lt_dec (p_row s + 1) h), (Z_lt_dec (p_row s + 1 + 1) h);
      try (left; right; lia); try (left; left; split; [reflexivity|lia]); right; intros [[_ H]|H]; lia.
Qed.
Lemma print_event_frame s : okd s -> prints (p_cmd s) ->
  match print_event s with
  | Ok s' => okd s' /\ p_cmd s' = p_cmd s /\ p_st s' = p_st s /\ p_rdyd s' = p_rdyd s /\ p_end s' = p_end s /\ p_col s' = p_col s /\ p_sel s' = p_sel s
  | UB => undefined_print s | NoFuel => False end.
Proof.
  intros O P. destruct (print_undefined s (okd_buf s O) P (ok_row s O)) as [U D]. unfold print_event.
  destruct (print_line s) as [[s' t]| |] eqn:E; cbn [bind].
  - destruct (print_frame s s' t O E) as [F O']. unfold same_but_print in F. destruct F as (A1 & A2 & A3 & A4 & A5 & A6 & A7 & A8 & A9 & A10 & A11 & A12 & A13 & A14 & A15).
    destruct O'. destruct (t =? 0); cbn; (split; [constructor; assumption|repeat split; assumption]).
  - destruct (undefined_dec s) as [C|C].
    + exact C.
    + destruct (D C) as (x & y & Q). discriminate.
  - destruct (undefined_dec s) as [C|C]; [apply U in C; discriminate|]. destruct (D C) as (x & y & Q). discriminate.
Qed.
