(** The line printer: C87 to C98. *)
From Verif Require Import P1443.Spec P1443.Proofs P1443.Proofs2 P1443.Proofs3 P1443.Proofs4 P1443.Proofs5 P1443.Proofs6 P1443.Proofs7 P1443.Proofs8.

(** The printer with paper, at address 14 (whose parity bit is 0). *)
Definition loaded : dev := with_file [] true fresh.
Definition stopped : dev := with_file [] false fresh.
Ltac by_vm := vm_compute; repeat split; reflexivity.

(** C87: a write command with spacing. *)
Theorem C87 : forall a pa s f n pc l pl bi, is_byte a -> with_parity a = Ok pa -> idle s f -> 0 <= n <= 3 -> with_parity (space_cmd true n) = Ok pc ->
  with_parities l pl -> (length l <= 120)%nat -> 1 <= line s -> line s + n <= 67 -> passes s n 9 = false -> passes s n 12 = false ->
  exists s' b' d p, talk a (write_line pa pc pl) s free bi = Ok (s', free, b', [0; SNS_CHNEND; SNS_DEVEND], d) /\
    trimmed (map glyph l) p /\ idle s' (f ++ p ++ newlines (Z.to_nat n)) /\ line s' = line s + n /\ p_sense s' = 0 /\ p_pend s' = p_pend s.
Proof.
  intros a pa s f n pc l pl bi A PA I N PC W L R LN P9 P12.
  assert (NH : forall i, line s <= i < line s + n -> i <> hole 9 /\ i <> hole 12).
  { intros i Hi. unfold passes in *. split; intros ->; [rewrite andb_false_iff in P9|rewrite andb_false_iff in P12]; lia. }
  assert (R' : 0 <= p_row s) by (unfold line in R; lia).
  destruct (Nat.eq_dec (length l) 120) as [E|E].
  - destruct (write_full a pa A PA s f n pc l pl bi I N PC W E R' LN NH) as (s' & b' & d & Q1 & Q2 & Q3 & Q4 & Q5).
    exists s', b', d, (cut (map glyph l)). repeat (split; [assumption || apply cut_trimmed|]). exact Q5.
  - destruct (write_whole a pa A PA s f n pc l pl bi I N PC W ltac:(lia) R' LN NH) as (s' & b' & d & Q1 & Q2 & Q3 & Q4 & Q5).
    exists s', b', d, (cut (map glyph l)). repeat (split; [assumption || apply cut_trimmed|]). exact Q5.
Qed.
Print Assumptions C87.
Example C87_ex : is_byte 14 /\ with_parity 14 = Ok 14 /\ idle loaded [] /\ with_parity (space_cmd true 1) = Ok 265 /\ with_parities [193; 64; 200; 64] [193; 64; 200; 64] /\
  1 <= line loaded /\ line loaded + 1 <= 67 /\ passes loaded 1 9 = false /\ passes loaded 1 12 = false /\
  match talk 14 (write_line 14 265 [193; 64; 200; 64]) loaded free 0 with Ok (s, _, _, st, _) => p_file s = Some [65; 32; 72; 13; 10] /\ st = [0; 8; 4] | _ => False end.
Proof.
  split; [unfold is_byte; lia|]. split; [reflexivity|]. split; [unfold idle; repeat split; apply Forall_forall; intros x H; apply repeat_spec in H; subst; apply byte0|].
  split; [reflexivity|]. split; [unfold with_parities; repeat constructor; cbn; lia|]. split; [cbn; lia|]. split; [cbn; lia|]. split; [reflexivity|]. split; [reflexivity|]. by_vm.
Qed.
(** A full line of 120 columns, with spacing 3. *)
Example C87_full_ex : match talk 14 (write_line 14 (space_cmd true 3) (repeat 193 120)) loaded free 0 with
  Ok (s, _, _, st, _) => p_file s = Some (repeat 65 120 ++ newlines 3) /\ st = [0; 8; 4] /\ line s = 4 | _ => False end.
Proof. by_vm. Qed.

(** C88 fails: the carriage comes to line 67 of a form of 66 lines, without a form feed, and there every spacing reads behind
    the carriage tape. *)
Theorem C88_refuted : match run 14 stopped (repeat (Key KSpace) 66) with Ok s => line s = 67 /\ p_file s = Some (newlines 66) /\ do_key KSpace s = UB | _ => False end.
Proof. by_vm. Qed.
Print Assumptions C88_refuted.
Theorem C88_last_refuted : forall s f w n, ok_buf s -> p_cmd s = space_cmd w n -> 1 <= n <= 3 -> p_file s = Some f -> line s = 67 -> print_line s = UB.
Proof.
  intros s f w n B C N F L. assert (P : prints (p_cmd s)).
  { rewrite C. unfold prints. destruct w; [left|right]; (assert (S : n = 1 \/ n = 2 \/ n = 3) by lia; destruct S as [S | [S | S]]; subst n; reflexivity). }
  unfold line in L. apply (print_undefined s B P); [lia|]. right. left. rewrite C.
  assert (S : n = 1 \/ n = 2 \/ n = 3) by lia. unfold line. destruct w; destruct S as [S | [S | S]]; subst n; cbn; lia.
Qed.
Print Assumptions C88_last_refuted.
(** What holds as long as the carriage does not go over line 67. *)
Theorem C88_partial : forall s f w n, ok_buf s -> p_cmd s = space_cmd w n -> 0 <= n <= 3 -> p_file s = Some f -> 1 <= line s -> line s + n <= 67 ->
  exists s' t p, print_line s = Ok (s', t) /\ (if w : bool then text_of s p else p = []) /\ p_file s' = Some (f ++ p ++ newlines (Z.to_nat n)) /\ line s' = line s + n /\
    p_sense s' = Z.lor (p_sense s) (if w && passes s n 9 then 1 else 0) /\ p_status s' = Z.lor (p_status s) (if w && passes s n 12 then SNS_UNITEXP else 0) /\ same_but_print s s' /\
    p_buf s' = (if w then repeat 64 144 else p_buf s).
Proof. intros s f w n B C N F R L. apply (space_all s f w n B C N F); [unfold line in R; lia|exact L]. Qed.
Print Assumptions C88_partial.
Example C88_ex : match print_line (set_cmd (space_cmd true 3) (set_row 60 loaded)) with Ok (s, _) => line s = 64 /\ p_sense s = 1 /\ p_status s = SNS_UNITEXP | _ => False end /\
  ok_buf (set_cmd (space_cmd true 3) (set_row 60 loaded)) /\ passes (set_row 60 loaded) 3 9 = true.
Proof. split; [by_vm|]. split; [|reflexivity]. split; [cbn; lia|]. apply Forall_forall. intros x H. apply repeat_spec in H. subst. apply byte0. Qed.

(** C89 fails: a skip stops one line before the hole, always; and when the hole is not below the current line, the search
    reads behind the carriage tape.  So a skip to channel 1, a new form, is never defined. *)
Theorem C89_refuted : forall s f w c, ok_buf s -> p_cmd s = skip_cmd w c -> 1 <= c <= 12 -> p_file s = Some f -> 1 <= line s -> line s < hole c ->
  exists s' t, print_line s = Ok (s', t) /\ line s' = hole c - 1.
Proof.
  intros s f w c B C N F R L. destruct (skip_all s f w c B C N F) as [S _]; [unfold line in R; lia|]. destruct (S L) as (s' & t & p & Q1 & _ & _ & Q2 & _). exists s', t. split; assumption.
Qed.
Print Assumptions C89_refuted.
Theorem C89_undefined_refuted : forall s f w c, ok_buf s -> p_cmd s = skip_cmd w c -> 1 <= c <= 12 -> p_file s = Some f -> 1 <= line s -> hole c <= line s -> print_line s = UB.
Proof. intros s f w c B C N F R L. destruct (skip_all s f w c B C N F) as [_ S]; [unfold line in R; lia|]. apply S. lia. Qed.
Print Assumptions C89_undefined_refuted.
(** What else a skip does. *)
Theorem C89_partial : forall s f w c, ok_buf s -> p_cmd s = skip_cmd w c -> 1 <= c <= 12 -> p_file s = Some f -> 1 <= line s -> line s < hole c ->
  exists s' t p, print_line s = Ok (s', t) /\ (if w : bool then text_of s p else p = []) /\ p_file s' = Some (f ++ p ++ newlines (Z.to_nat (hole c - 1 - line s))) /\
     line s' = hole c - 1 /\ p_sense s' = p_sense s /\ p_status s' = p_status s /\ same_but_print s s' /\ p_buf s' = (if w then repeat 64 144 else p_buf s).
Proof. intros s f w c B C N F R L. destruct (skip_all s f w c B C N F) as [S _]; [unfold line in R; lia|]. exact (S L). Qed.
Print Assumptions C89_partial.
Example C89_ex : hole 2 = 7 /\ match print_line (set_cmd (skip_cmd false 2) loaded) with Ok (s, _) => line s = 6 /\ p_file s = Some (newlines 5) | _ => False end /\
  print_line (set_cmd (skip_cmd false 1) loaded) = UB.
Proof. split; [reflexivity|]. split; [by_vm|]. vm_compute. reflexivity. Qed.

(** C90: whatever the printer puts on bus-in has odd parity. *)
Theorem C90 : forall a l s t bo bi s' t' bi', is_byte a -> run a fresh l = Ok s -> dev_step a s t bo bi = Ok (s', t', bi') -> bi' = bi \/ odd9 bi'.
Proof.
  intros a l s t bo bi s' t' bi' A R E. pose proof (run_good a l A fresh fresh_ok) as G. rewrite R in G.
  pose proof (step_good a s t bo bi A G) as S. rewrite E in S. exact (proj2 S).
Qed.
Print Assumptions C90.
Example C90_ex : match talk 14 (firstn 2 (start_io 14 265)) loaded free 0 with Ok (_, t, b, _, _) => adri t = true /\ b = 14 /\ odd_bits 9 14 = true | _ => False end.
Proof. by_vm. Qed.

(** C91 fails: when the printer has been addressed in the middle of a write and answered busy, it still takes itself for
    addressed; with nobody on the interface it then comes up with its address without being polled. *)
Theorem C91_refuted :
  match talk 14 (start_io 14 265 ++ give 193 ++ give 193 ++ give 193 ++
                 [Cyc o_select 14; Cyc (mkO false true false false false true) 14; Cyc held 0; Cyc nothing 0; Cyc nothing 0]) loaded free 0 with
  | Ok (s, t, b, _, _) => t = free /\ match dev_step 14 s t 0 b with Ok (_, t', b') => opri t' = true /\ adri t' = true /\ b' = 14 /\ b <> 14 | _ => False end
  | _ => False end.
Proof. vm_compute. repeat split; try reflexivity. discriminate. Qed.
Print Assumptions C91_refuted.
(** What holds when it does not take itself for selected or addressed. *)
Theorem C91_partial : forall a l s t bo bi s' t' bi', is_byte a -> run a fresh l = Ok s -> p_sel s = false -> p_adr s = false -> ~ resetting t ->
  dev_step a s t bo bi = Ok (s', t', bi') -> drives t bi t' bi' -> addressing a t bo \/ polling t.
Proof.
  intros a l s t bo bi s' t' bi' A R SL AD NR E D. destruct (run_held a l A fresh s fresh_ok I R) as [O H]. exact (quiet a s t bo bi s' t' bi' A O H SL AD NR E D).
Qed.
Print Assumptions C91_partial.
Example C91_ex : match dev_step 14 loaded (chan_tags o_select free) 14 0 with Ok (_, t, b) => drives (chan_tags o_select free) 0 t b | _ => False end.
Proof. cbn. left. split; reflexivity. Qed.

(** C92 fails when the printer is not ready: sense is refused like any other command, and what was to be sensed is lost. *)
Theorem C92_refuted : match talk 14 (ask 14 4) (set_sense 1 stopped) free 0 with Ok (s, _, _, st, _) => st = [14] /\ p_sense s = S_INTERV | _ => False end.
Proof. by_vm. Qed.
Print Assumptions C92_refuted.
Theorem C92_partial : forall a pa s f p4 bi, is_byte a -> with_parity a = Ok pa -> idle s f -> with_parity 4 = Ok p4 -> is_byte (p_sense s) ->
  exists s' b', talk a (sense_all pa p4) s free bi = Ok (s', free, b', [0; SNS_CHNEND + SNS_DEVEND], [p_sense s]) /\ idle s' f /\ p_sense s' = p_sense s /\ line s' = line s.
Proof. intros a pa s f p4 bi A PA. exact (sense_whole a pa A PA s f p4 bi). Qed.
Print Assumptions C92_partial.
Example C92_ex : with_parity 4 = Ok 4 /\ idle (set_sense 32 loaded) [] /\ match talk 14 (sense_all 14 4) (set_sense 32 loaded) free 0 with Ok (_, _, _, st, d) => st = [0; 12] /\ d = [32] | _ => False end.
Proof. split; [reflexivity|]. split; [unfold idle; repeat split; apply Forall_forall; intros x H; apply repeat_spec in H; subst; apply byte0|]. by_vm. Qed.

(** C93 fails: a command that moves the paper does so even if it came with the wrong parity and is refused. *)
Theorem C93_refuted : bad_parity 267 = Ok true /\ match talk 14 (ask 14 267) loaded free 0 with Ok (s, _, _, st, _) => st = [14] /\ p_file s = Some [13; 10] /\ line s = 2 /\ p_pend s = 1%nat | _ => False end.
Proof. by_vm. Qed.
Print Assumptions C93_refuted.
Theorem C93_partial : forall a pa s f pc bi, is_byte a -> with_parity a = Ok pa -> idle s f -> bad_parity pc = Ok true -> is_byte (p_sense s) -> Z.land pc 7 <> 3 ->
  exists s' t w, talk a (ask pa pc) s free bi = Ok (s', t, w, [14], []) /\ bit (p_sense s') S_BUSCHK = true /\ p_file s' = p_file s /\ p_row s' = p_row s.
Proof. intros a pa s f pc bi A PA I B S N. exact (answer_parity a pa A PA s f pc bi I B S N). Qed.
Print Assumptions C93_partial.
Example C93_ex : bad_parity 9 = Ok true /\ Z.land 9 7 <> 3 /\ match talk 14 (ask 14 9) loaded free 0 with Ok (s, _, _, st, _) => st = [14] /\ p_sense s = 32 | _ => False end.
Proof. split; [reflexivity|]. split; [discriminate|]. by_vm. Qed.

(** C94 fails: a movement left over (here from a refused command, see C93) ends the next command: device end is shown while the
    paper still moves. *)
Theorem C94_refuted : match talk 14 (ask 14 267 ++ [Cyc o_service 0; Cyc nothing 0] ++ write_line 14 265 [193]) loaded free 0 with
  Ok (s, _, _, st, _) => st = [14; 0; SNS_CHNEND; SNS_DEVEND] /\ p_pend s = 1%nat | _ => False end.
Proof. by_vm. Qed.
Print Assumptions C94_refuted.
(** So does a movement that was under way when the interface was reset. *)
Theorem C94_reset_refuted : match talk 14 (start_io 14 265 ++ give 193 ++ no_more ++ take_chan_end) loaded free 0 with
  | Ok (s, _, _, _, _) => match dev_step 14 s (mkT false false false false false false false false false false false false) 0 0 with
    | Ok (s, _, _) => p_st s = P_IDLE /\ match talk 14 (write_line 14 265 [193]) s free 0 with Ok (s, _, _, st, _) => st = [0; SNS_CHNEND; SNS_DEVEND] /\ p_pend s = 1%nat | _ => False end
    | _ => False end
  | _ => False end.
Proof. by_vm. Qed.
Print Assumptions C94_reset_refuted.
(** What holds: while no movement has ended since the command was taken, the printer waits and shows no device end. *)
Theorem C94_partial : forall a s t bo bi s' t' b', p_st s = P_WAIT -> p_done s = false -> ~ resetting t -> dev_step a s t bo bi = Ok (s', t', b') ->
  p_st s' = P_WAIT /\ p_done s' = false /\ p_status s' = p_status s.
Proof. exact wait_waits. Qed.
Print Assumptions C94_partial.
Example C94_ex : match talk 14 (start_io 14 265 ++ give 193 ++ no_more ++ take_chan_end) loaded free 0 with Ok (s, t, _, _, _) => p_st s = P_WAIT /\ p_done s = false /\ p_pend s = 1%nat | _ => False end.
Proof. by_vm. Qed.

(** C95 fails in three ways: "carriage restore" of a printer that is not ready reads behind the carriage tape, whatever has
    happened before; "carriage space" without a file writes to a null stream; the same key during a write makes the printer
    take the data it got, with its parity bit, as an index. *)
Theorem C95_restore_refuted : forall a l s, is_byte a -> run a fresh l = Ok s -> p_ready s = false -> do_key KRestore s = UB.
Proof. intros a l s A R N. pose proof (run_good a l A fresh fresh_ok) as G. rewrite R in G. exact (restore_ub s G N). Qed.
Print Assumptions C95_restore_refuted.
Example C95_restore_ex : match run 14 fresh [Key (KPaper (Some [])); Key KStart; Key KStop] with Ok s => p_ready s = false /\ p_file s = Some [] | _ => False end.
Proof. by_vm. Qed.
Theorem C95_space_refuted : run 14 fresh [Key KSpace] = UB.
Proof. vm_compute. reflexivity. Qed.
Print Assumptions C95_space_refuted.
Theorem C95_data_refuted : match talk 14 (start_io 14 265 ++ give 451) loaded free 0 with
  | Ok (s, t, b, _, _) => match run 14 s [Key KStop; Key KSpace] with Ok s => talk 14 [Cyc held 0; Cyc held 0] s t b = UB | _ => False end
  | _ => False end.
Proof. vm_compute. reflexivity. Qed.
Print Assumptions C95_data_refuted.
(** What holds: nothing else is undefined, and nothing runs on for ever. *)
Theorem C95_partial : forall a l, is_byte a ->
  match run a fresh l with Ok s => True | UB => exists l1 x l2 s1, l = l1 ++ x :: l2 /\ run a fresh l1 = Ok s1 /\ undefined_act s1 x | NoFuel => False end.
Proof. intros a l A. pose proof (run_good a l A fresh fresh_ok) as G. destruct (run a fresh l); [exact I|exact G|exact G]. Qed.
Print Assumptions C95_partial.
Example C95_ex : ~ undefined_act loaded (Key KRestore) /\ undefined_act fresh (Key KSpace).
Proof. split; [intros [H _]; discriminate|]. split; [reflexivity|left; reflexivity]. Qed.

(** C96 fails: with sense set, the ending status comes up without unit check, which only appears in the next cycle. *)
Theorem C96_refuted : match talk 14 (ask 14 4 ++ [Cyc o_service 4; Cyc nothing 0]) stopped free 0 with
  | Ok (s, t, b, _, _) => match do_key KStart s with
    | Ok s => match talk 14 (firstn 12 (sense_all 14 4)) s t b with
      | Ok (s, t, b, st, d) => st = [0; 12] /\ d = [64] /\ stai t = true /\ Z.land b 255 = 12 /\
          match talk 14 [Cyc held 0] s t b with Ok (_, t, b, _, _) => stai t = true /\ Z.land b 255 = 14 | _ => False end
      | _ => False end
    | _ => False end
  | _ => False end.
Proof. by_vm. Qed.
Print Assumptions C96_refuted.
Theorem C96_partial : forall a s t bo bi s1 t1 b1 t' bo' bi' s2 t2 b2, is_byte (p_status s) -> p_st s = P_END -> p_sel s = true ->
  p_sense s = 0 \/ bit (p_status s) SNS_UNITCHK = true -> opro t = true -> srvo t = false -> opro t' = true ->
  dev_step a s t bo bi = Ok (s1, t1, b1) -> p_st s1 = P_END -> srvo t' && negb (stai t') = false -> dev_step a s1 t' bo' bi' = Ok (s2, t2, b2) -> b2 = b1.
Proof. exact end_stable. Qed.
Print Assumptions C96_partial.
Example C96_ex : match talk 14 (firstn 11 (sense_all 14 4)) loaded free 0 with Ok (s, _, _, _, _) => p_st s = P_END /\ p_sel s = true /\ p_sense s = 0 /\ p_status s = 12 | _ => False end.
Proof. by_vm. Qed.

(** C97 fails: after the start key nothing is ever shown to the channel; an idle printer changes nothing on the interface
    until it is selected. *)
Theorem C97_refuted : forall a s f t bo bi, p_st s = P_IDLE -> p_file s = Some f -> ~ resetting t -> selo t = false ->
  exists s', do_key KStart s = Ok s' /\ bit (p_status s') SNS_DEVEND = true /\ dev_step a s' t bo bi = Ok (s', t, bi).
Proof.
  intros a s f t bo bi ST F NR SO. exists (set_ready true (set_end true (or_status SNS_DEVEND s))). split; [cbn [do_key]; rewrite ST, F; reflexivity|]. split.
  - cbn. unfold bit. apply negb_true_iff, Z.eqb_neq. intros Q. assert (T : Z.testbit (Z.land (Z.lor (p_status s) SNS_DEVEND) SNS_DEVEND) 2 = false) by (rewrite Q; apply Z.bits_0).
    rewrite Z.land_spec, Z.lor_spec in T. change (Z.testbit SNS_DEVEND 2) with true in T. rewrite orb_true_r in T. discriminate.
  - apply idle_quiet; assumption.
Qed.
Print Assumptions C97_refuted.
Example C97_ex : p_st stopped = P_IDLE /\ p_file stopped = Some [] /\ ~ resetting free /\ selo free = false.
Proof. repeat split. intros [H _]. discriminate. Qed.

(** C98 fails: a command with the low bits 0 that is not 0 gets status 0 and never ends: until a reset the printer shows
    nothing but busy, whatever the channel does and however many movements end. *)
Theorem C98_refuted : match talk 14 (start_io 14 16) loaded free 0 with
  | Ok (s, t, _, st, _) => st = [0] /\ (forall a l, Forall no_reset l -> exists s', run a s l = Ok s' /\ p_st s' = P_OPR /\
      forall t bo bi, ~ resetting t -> exists s2 t' b', dev_step a s' t bo bi = Ok (s2, t', b') /\ (stai t = false -> stai t' = true -> b' = SNS_BSY) /\ srvi t' = srvi t)
  | _ => False end.
Proof.
  destruct (talk 14 (start_io 14 16) loaded free 0) as [[[[[s t] b] st] d]| |] eqn:E; vm_compute in E; try discriminate. injection E as <- <- <- <- <-. split; [reflexivity|].
  intros a l F. match goal with |- exists s', run a ?s l = _ /\ _ => assert (S : stuck s) by (repeat split); revert S; generalize s end.
  induction F as [|x l X F IH]; intros s S.
  - exists s. split; [reflexivity|]. split; [apply S|]. intros t bo bi R. destruct (stuck_step a s t bo bi S R) as (s2 & t' & b' & Q1 & _ & Q2). exists s2, t', b'. split; assumption.
  - destruct x as [t bo bi| |k]; cbn [no_reset] in X.
    + destruct (stuck_step a s t bo bi S X) as (s2 & t' & b' & Q1 & Q2 & _). cbn [run astep]. rewrite Q1. cbn [bind fst]. apply IH. exact Q2.
    + cbn [run astep bind]. apply IH. unfold fire. destruct (p_pend s); [exact S|]. destruct S as (S1 & S2 & S3 & S4). repeat split; assumption.
    + contradiction.
Qed.
Print Assumptions C98_refuted.
(** The answers to all other commands, from a printer that is ready: *)
Theorem C98_partial : forall a pa s f pc c bi, is_byte a -> with_parity a = Ok pa -> idle s f -> is_byte c -> with_parity c = Ok pc -> is_byte (p_sense s) ->
  (writes_ c -> exists s' t w, talk a (ask pa pc) s free bi = Ok (s', t, w, [0], []) /\ p_sense s' = 0 /\ p_file s' = p_file s /\ p_row s' = p_row s) /\
  (c = 4 \/ c = 0 -> exists s' t w, talk a (ask pa pc) s free bi = Ok (s', t, w, [0], []) /\ p_sense s' = p_sense s /\ p_file s' = p_file s /\ p_row s' = p_row s) /\
  (~ writes_ c -> ~ moves_ c -> c <> 4 -> Z.land c 7 <> 0 ->
     exists s' t w, talk a (ask pa pc) s free bi = Ok (s', t, w, [14], []) /\ p_sense s' = S_CMDREJ /\ p_file s' = p_file s /\ p_row s' = p_row s).
Proof.
  intros a pa s f pc c bi A PA I C PC S. destruct (answer_simple a pa A PA s f pc c bi I C PC S) as (Q1 & Q2 & Q3). split; [exact Q1|]. split; [|exact Q3].
  intros [H|H]; apply Q2; [left; exact H|right; rewrite H; reflexivity].
Qed.
Print Assumptions C98_partial.
Theorem C98_moves_partial : forall a pa s f pc c n bi, is_byte a -> with_parity a = Ok pa -> idle s f -> with_parity c = Ok pc -> is_byte (p_sense s) -> 0 <= p_row s <= 66 ->
  ((exists k, 0 <= k <= 3 /\ c = space_cmd false k /\ n = Z.to_nat k /\ line s + k <= 67) \/
   (exists k, 1 <= k <= 12 /\ c = skip_cmd false k /\ line s < hole k /\ n = Z.to_nat (hole k - line s - 1))) ->
  exists s' t w, talk a (ask pa pc) s free bi = Ok (s', t, w, [SNS_CHNEND], []) /\ p_sense s' = 0 /\ p_file s' = Some (f ++ newlines n) /\ line s' = line s + Z.of_nat n.
Proof. intros a pa s f pc c n bi A PA. exact (answer_move a pa A PA s f pc c n bi). Qed.
Print Assumptions C98_moves_partial.
Example C98_ex : writes_ 9 /\ moves_ 11 /\ ~ writes_ 2 /\ ~ moves_ 2 /\ with_parity 2 = Ok 2 /\
  match talk 14 (ask 14 2) loaded free 0 with Ok (s, _, _, st, _) => st = [14] /\ p_sense s = 128 | _ => False end /\
  match talk 14 (ask 14 11) loaded free 0 with Ok (s, _, _, st, _) => st = [8] /\ p_file s = Some [13; 10] | _ => False end.
Proof.
  split; [left; exists 1; split; [lia|reflexivity]|]. split; [left; exists 1; split; [lia|reflexivity]|].
  split; [intros [(n & N & E)|(n & N & E)]; unfold space_cmd, skip_cmd in E; lia|]. split; [intros [(n & N & E)|(n & N & E)]; unfold space_cmd, skip_cmd in E; lia|].
  split; [reflexivity|]. split; by_vm.
Qed.
