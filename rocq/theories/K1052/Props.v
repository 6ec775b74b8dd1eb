(** The console: C99 to C111. *)
From Verif Require Import K1052.Spec K1052.Proofs K1052.Proofs2 K1052.Proofs3 K1052.Proofs4.

(** The console at address 31 (whose parity bit is 0): somebody connects, the system is reset. *)
Definition off : tags := mkT false false false false false false false false false false false false.
Definition ready : dev := Eval vm_compute in match run 31 fresh [Net true None; Chan off 0 0] with Ok s => s | _ => fresh end.
Ltac by_vm := vm_compute; repeat split; reflexivity.
Lemma byte31 : is_byte 31. Proof. unfold is_byte. lia. Qed.
Lemma ready_idle : idle ready /\ clean ready /\ quiet ready /\ queue_ok ready /\ c_tn ready = T_NORM /\ c_poll ready = true.
Proof.
  split; [by_vm|]. split; [split; [reflexivity|split; [discriminate|reflexivity]]|]. split; [by_vm|]. split; [|split; reflexivity].
  split; [reflexivity|]. split; [split; [discriminate|reflexivity]|]. split; [split; discriminate|reflexivity].
Qed.

(** C99: the characters typed are given once each and in the order in which they were typed. Never is one added in between or
    the order changed, whatever happens to the console. *)
Theorem C99 : (forall a l s, is_byte a -> run a fresh l = Ok s -> queue_ok s /\ (length (queue s) <= 256)%nat /\
    forall x s', astep a s x = Ok s' -> exists n m, queue s' = skipn n (queue s) ++ m) /\
  (forall l s, queue_ok s -> c_cons s = true -> c_iflg s = true -> c_tn s = T_NORM -> queue s = [] -> Forall kact_ok l -> (length (all_typed l) < 256)%nat ->
    exists s' o, session l s = Ok (s', o) /\ map code (all_typed l) = o ++ map code (queue s')).
Proof.
  split.
  - intros a l s A R. pose proof (run_okd a l A _ _ fresh_okd R) as O. split; [exact (ok_queue _ _ O)|]. split; [pose proof (queue_len s (ok_queue _ _ O)); destruct (ok_queue _ _ O) as (_ & _ & N & _); lia|].
    intros x s' E. pose proof (step_act a s x A O) as S. rewrite E in S. exact (proj2 (proj2 S)).
  - intros l s Q C F T E K L. assert (QA : Forall (fun c => 0 <= c < 128) (queue s)) by (rewrite E; constructor). assert (L' : (length (queue s ++ all_typed l) < 256)%nat) by (rewrite E; exact L).
    destruct (session_defined l s Q C F T K QA L') as (s' & o & H). exists s', o. split; [exact H|]. pose proof (session_fifo l s s' o Q C F T K QA L' H) as P. rewrite E in P. exact P.
Qed.
Print Assumptions C99.
Definition reading : dev := set_iflg true ready.
Example C99_ex : queue_ok reading /\ c_cons reading = true /\ c_tn reading = T_NORM /\ queue reading = [] /\
  match session [KType [Ch 65; Opt 251 1; Ch 66]; KTake; KType [Brk; Ch 67; Ch 13]; KTake] reading with Ok (s, o) => o = [193; 194] /\ queue s = [67] | _ => False end /\
  Forall kact_ok [KType [Ch 65; Opt 251 1; Ch 66]; KTake; KType [Brk; Ch 67; Ch 13]; KTake].
Proof.
  split; [apply ready_idle|]. split; [reflexivity|]. split; [reflexivity|]. split; [reflexivity|]. split; [by_vm|].
  repeat (apply Forall_cons || apply Forall_nil); cbn; try exact I; (split; [discriminate|]); (split; repeat (apply Forall_cons || apply Forall_nil)); unfold unit_ok, is_byte; try lia; exact I.
Qed.

(** C100 fails: what is inside a subnegotiation is taken for typed, and after an unknown command (255 241, do nothing) a
    character is lost. *)
Theorem C100_refuted : (sub_ok (Sub [24; 65; 66]) /\ queue (receive (sub_bytes (Sub [24; 65; 66])) reading) = [65; 66] /\ sub_chars (Sub [24; 65; 66]) = []) /\
  queue (receive [255; 241; 65; 66] reading) = [66].
Proof. split; [|by_vm]. split; [cbn; repeat constructor; lia|]. by_vm. Qed.
Print Assumptions C100_refuted.
(** What holds: characters, doubled 255, break and options are taken apart as they should, however they are cut into pieces. *)
Theorem C100_partial : (forall l1 l2 s, receive (l1 ++ l2) s = receive l2 (receive l1 s)) /\
  (forall us s, us <> [] -> Forall unit_ok us -> queue_ok s -> c_cons s = true -> c_tn s = T_NORM ->
  let s' := net false (Some (concat (map bytes_of us))) s in
  queue s' = firstn 256 (queue s ++ (if c_iflg s then typed us else [])) /\
  ((length (queue s ++ (if c_iflg s then typed us else [])) < 256)%nat ->
    c_tn s' = T_NORM /\ c_attn s' = c_attn s || existsb (Z.eqb 27) (concat (map chars_of us)) /\
    c_eob s' = c_eob s || (c_iflg s && existsb (Z.eqb 13) (concat (map chars_of us))) /\ c_cancel s' = c_cancel s || (c_iflg s && existsb (Z.eqb 3) (concat (map chars_of us))))).
Proof.
  split; [exact receive_app|]. intros us s NE U Q C T. destruct (net_types us s NE U Q C T) as (_ & E & _ & _ & B). split; [exact E|exact B].
Qed.
Print Assumptions C100_partial.
Example C100_ex : let s' := net false (Some [65; 255; 253; 24; 27; 255; 255; 13]) reading in
  concat (map bytes_of [Ch 65; Opt 253 24; Ch 27; Iac; Ch 13]) = [65; 255; 253; 24; 27; 255; 255; 13] /\ queue s' = [65; 255] /\ c_attn s' = true /\ c_eob s' = true.
Proof. by_vm. Qed.

(** C101 fails: typing a character that is not ASCII, or writing a byte whose parity bit is 1, is enough. *)
Theorem C101_refuted : run 31 reading [Net false (Some [200]); In] = UB /\ run 31 (set_cmd 10 reading) [Net false (Some [200]); Poll] = UB /\
  talk 31 (write_text 31 1 [451]) ready free 0 = UB.
Proof. by_vm. Qed.
Print Assumptions C101_refuted.
(** What holds: these are the only cases. *)
Theorem C101_partial : forall a l s x, is_byte a -> run a fresh l = Ok s -> (astep a s x = UB <-> undefined_act s x) /\ astep a s x <> NoFuel.
Proof.
  intros a l s x A R. pose proof (step_act a s x A (run_okd a l A _ _ fresh_okd R)) as S. destruct (astep a s x) as [s'| |].
  - split; [|discriminate]. split; [discriminate|]. intros U. exfalso. exact (proj1 (proj2 S) U).
  - split; [|discriminate]. split; [intros _; exact S|reflexivity].
  - destruct S.
Qed.
Print Assumptions C101_partial.
Example C101_ex : run 31 fresh [Net true None; Chan off 0 0] = Ok ready /\ ~ undefined_act ready Poll /\ undefined_act (net false (Some [200]) reading) In.
Proof. split; [by_vm|]. split; [intros (_ & _ & _ & H & _); discriminate H|]. split; [reflexivity|]. vm_compute. intros [_ H]. discriminate H. Qed.

(** C102 fails: a byte with an even number of ones makes the whole write undefined, whatever is around it. *)
Theorem C102_refuted : forall a pa s c pc l b pb m bi, is_byte a -> with_parity a = Ok pa -> idle s -> clean s -> c = WRITE \/ c = WRITE_ACR -> with_parity c = Ok pc ->
  Forall (fun b => is_byte b /\ with_parity b = Ok b) l -> is_byte b -> with_parity b = Ok pb -> pb <> b -> talk a (write_text pa pc (l ++ pb :: m)) s free bi = UB.
Proof. intros a pa s c pc l b pb m bi A PA I C K PC F B PB N. exact (write_ub a pa A PA s c pc l b pb bi I C K PC F B PB N m). Qed.
Print Assumptions C102_refuted.
Example C102_even_ex : with_parity 195 = Ok 451 /\ 451 <> 195 /\ talk 31 (write_text 31 1 [193; 451; 193]) ready free 0 = UB.
Proof. split; [reflexivity|]. split; [discriminate|]. by_vm. Qed.
(** What holds: a text of bytes with an odd number of ones is shown, the second form with a new line behind it. *)
Theorem C102_partial : forall a pa s c pc l bi, is_byte a -> with_parity a = Ok pa -> idle s -> clean s -> c = WRITE \/ c = WRITE_ACR -> with_parity c = Ok pc ->
  Forall (fun b => is_byte b /\ with_parity b = Ok b) l ->
  exists s' bi' d, talk a (write_text pa pc l) s free bi = Ok (s', free, bi', [0; 12], d) /\ idle s' /\ clean s' /\
    c_sent s' = c_sent s ++ concat (map shown l) ++ (if c =? WRITE_ACR then [13; 10] else []).
Proof. intros a pa s c pc l bi A PA I C K PC F. exact (write_all a pa A PA s c pc l bi I C K PC F). Qed.
Print Assumptions C102_partial.
Example C102_ex : idle ready /\ clean ready /\ with_parity 9 = Ok 265 /\
  match talk 31 (write_text 31 265 [193; 194; 13]) ready free 0 with Ok (s, _, _, st, _) => c_sent s = init_string ++ [65; 66; 13; 10; 13; 10] /\ st = [0; 12] | _ => False end.
Proof. destruct ready_idle as (HI & C & _). split; [exact HI|]. split; [exact C|]. split; [reflexivity|]. by_vm. Qed.

(** C103: the first status of every command. *)
Theorem C103 : forall a pa s c pc bi, is_byte a -> with_parity a = Ok pa -> idle s -> is_byte c -> with_parity c = Ok pc ->
  exists s' t' bi', talk a (ask pa pc) s free bi = Ok (s', t', bi', [first_status c], []) /\ (first_status c = 14 -> c_sense s' = 128) /\ c_bsy s' = (known c || (c =? NOP)).
Proof. exact ask_any. Qed.
Print Assumptions C103.
Example C103_ex : idle ready /\ match talk 31 (ask 31 2) ready free 0 with Ok (s, _, _, st, _) => st = [14] /\ c_sense s = 128 | _ => False end /\
  match talk 31 (ask 31 259) ready free 0 with Ok (_, _, _, st, _) => st = [12] | _ => False end.
Proof. split; [exact (proj1 ready_idle)|]. by_vm. Qed.

(** C104 fails: no sense command comes to an end. After its first status nothing but a reset helps: the console never shows its
    sense byte, channel end or device end, and stays busy. *)
Theorem C104_refuted : forall a pa s pc bi, is_byte a -> with_parity a = Ok pa -> idle s -> quiet s -> c_iflg s = false -> is_byte (c_sense s) -> with_parity SENSE = Ok pc ->
  exists s' t' bi', talk a (start_io pa pc ++ [Cyc held 0]) s free bi = Ok (s', t', bi', [0], []) /\
  forall l, Forall plain_act l -> exists s'', run a s' l = Ok s'' /\ c_bsy s'' = true /\ c_done s'' = false /\ c_st s'' = WAIT_DEVEND /\
    forall t bo bi, ~ resetting t -> exists s3, dev_step a s'' t bo bi = Ok (s3, set_selo false t, bi).
Proof.
  intros a pa s pc bi A PA I Q F B PC. destruct (sense_stuck a pa s pc bi A PA I Q F PC B) as (s' & t' & b' & E & S). exists s', t', b'. split; [exact E|].
  intros l FL. destruct (stuck_run a l FL s' S) as (s2 & E2 & S2). exists s2. pose proof S2 as (S21 & S22 & S23 & _). repeat (split; [assumption|]).
  intros t bo b2 NR. unfold dev_step. destruct (negb (opro t) && negb (supo t)) eqn:R.
  - exfalso. apply NR. apply andb_true_iff in R. destruct R as [R1 R2]. apply negb_true_iff in R1, R2. split; assumption.
  - rewrite S21. cbv zeta. eexists. reflexivity.
Qed.
Print Assumptions C104_refuted.
Example C104_ex : idle ready /\ quiet ready /\ c_iflg ready = false /\ is_byte (c_sense ready) /\ with_parity SENSE = Ok 4 /\ Forall plain_act [Poll; Chan free 0 0; Net false (Some [13]); Send].
Proof.
  destruct ready_idle as (HI & _ & Q & _). split; [exact HI|]. split; [exact Q|]. repeat (split; [first [reflexivity|(split; [discriminate|reflexivity])]|]).
  repeat (apply Forall_cons || apply Forall_nil); cbn; try exact I. intros [H _]. discriminate H.
Qed.

(** C105 fails: when two characters have been typed before the channel takes the first, the first is lost. *)
Theorem C105_refuted : match talk 31 (start_io 31 266 ++ [ENet (Some [65; 66]); EPoll; EPoll; Cyc held 0; Cyc held 0; Cyc o_service 0; Cyc held 0] ++ [ENet (Some [13]); EPoll; Cyc held 0] ++ take_end) ready free 0
  with Ok (_, _, _, st, d) => st = [0; 12] /\ d = [194] | _ => False end.
Proof. by_vm. Qed.
Print Assumptions C105_refuted.
(** What holds: a line typed no faster than the channel takes it arrives whole. *)
Theorem C105_partial : forall a pa s pc l bi, is_byte a -> with_parity a = Ok pa -> idle s -> clean s -> queue_ok s -> c_tn s = T_NORM -> c_poll s = true -> with_parity READ = Ok pc ->
  Forall (fun k => 0 <= k < 128 /\ control k = false) l ->
  exists s' bi', talk a (read_line pa pc l) s free bi = Ok (s', free, bi', [0; 12], map code l) /\ c_st s' = IDLE /\ c_bsy s' = false /\ c_sent s' = c_sent s ++ l.
Proof. intros a pa s pc l bi A PA I C Q T P PC F. exact (read_all a pa A PA s pc l bi I C Q T P PC F). Qed.
Print Assumptions C105_partial.
Example C105_ex : with_parity READ = Ok 266 /\ match talk 31 (read_line 31 266 [72; 105]) ready free 0 with Ok (s, _, _, st, d) => st = [0; 12] /\ d = [200; 137] /\ c_sent s = init_string ++ [72; 105] | _ => False end.
Proof. by_vm. Qed.

(** C106: the attention key. *)
Theorem C106 : forall a pa s bi, is_byte a -> with_parity a = Ok pa -> idle s -> quiet s -> c_poll s = true -> c_tn s = T_NORM ->
  exists s' bi', talk a take_attention s free bi = Ok (s', free, bi', [128], []) /\ idle s' /\ quiet s'.
Proof. exact attention. Qed.
Print Assumptions C106.
Example C106_ex : idle ready /\ quiet ready /\ c_poll ready = true /\ c_tn ready = T_NORM /\
  match talk 31 (take_attention ++ take_attention) ready free 0 with Ok (_, _, _, st, _) => st = [128; 128] | _ => False end.
Proof. destruct ready_idle as (HI & _ & Q & _ & T & P). do 4 (split; [assumption|]). by_vm. Qed.

(** C107: parity of bus-in. *)
Theorem C107 : forall a l s t bo bi s' t' bi', is_byte a -> run a fresh l = Ok s -> dev_step a s t bo bi = Ok (s', t', bi') -> bi' = bi \/ odd9 bi'.
Proof. intros a l s t bo bi s' t' bi' A R E. pose proof (step_good a s t bo bi A (run_okd a l A _ _ fresh_okd R)) as G. rewrite E in G. exact (proj1 (proj2 G)). Qed.
Print Assumptions C107.
Example C107_ex : match dev_step 31 ready (chan_tags o_select free) 31 0 with Ok (_, _, bi) => bi = 31 | _ => False end /\ odd9 31.
Proof. split; [by_vm|]. split; [lia|reflexivity]. Qed.

(** C108: an idle console leaves the interface alone. *)
Theorem C108 : forall a s t bo bi s' t' bi', c_st s = IDLE -> ~ resetting t -> ~ addressing a t bo -> ~ polling s t -> dev_step a s t bo bi = Ok (s', t', bi') ->
  s' = s /\ ~ drives t bi t' bi'.
Proof. exact idle_quiet. Qed.
Print Assumptions C108.
Example C108_ex : c_st ready = IDLE /\ ~ resetting (chan_tags o_select free) /\ ~ addressing 31 (chan_tags o_select free) 30 /\ ~ polling ready (chan_tags o_select free) /\
  match dev_step 31 ready (chan_tags o_select free) 30 0 with Ok (_, t, _) => selo t = true | _ => False end /\ addressing 31 (chan_tags o_select free) 31.
Proof. repeat split; try reflexivity; intros H; unfold resetting, addressing, polling in H; cbn in H; intuition discriminate. Qed.

(** C109 fails: an ending status that has not been taken survives the reset and is given as answer to the next command, which is
    lost. *)
Definition o_reset : act := Chan off 0 0.
Theorem C109_refuted : match talk 31 (start_io 31 1 ++ [Cyc held 0] ++ no_more ++ [Cyc held 0]) ready free 0 with
  | Ok (s, _, _, st, _) => st = [0; 12] /\ match run 31 s [o_reset] with
      | Ok s1 => c_status s1 = 12 /\ match talk 31 (ask 31 266) s1 free 0 with Ok (s2, _, _, st2, _) => st2 = [12] /\ c_bsy s2 = false | _ => False end
      | _ => False end
  | _ => False end /\ match talk 31 (ask 31 266) ready free 0 with Ok (s2, _, _, st2, _) => st2 = [0] /\ c_bsy s2 = true | _ => False end.
Proof. by_vm. Qed.
Print Assumptions C109_refuted.
(** What holds: the reset of every state. *)
Theorem C109_partial : forall a s t bo bi, resetting t -> exists s' t', dev_step a s t bo bi = Ok (s', t', bi) /\
  c_st s' = IDLE /\ c_sel s' = false /\ c_req s' = false /\ c_bsy s' = false /\ c_cmd s' = 0 /\ c_sense s' = 0 /\ c_end s' = false /\ c_done s' = false /\ c_rdyd s' = false /\ c_poll s' = true /\
  c_sent s' = c_sent s /\ c_status s' = c_status s /\ c_stk s' = c_stk s /\
  (c_cons s = true -> c_attn s' = false /\ c_iflg s' = false /\ c_home s' = false) /\
  (c_sel s = true -> opri t' = false /\ adri t' = false /\ srvi t' = false /\ stai t' = false) /\ (c_sel s = false -> t' = t).
Proof.
  intros a s t bo bi [R1 R2]. unfold dev_step. rewrite R1, R2. cbn [negb andb]. cbv zeta. eexists; eexists. split; [reflexivity|]. unfold func. cbn [reset_dev c_cons].
  destruct (c_cons s) eqn:C; [|cbn; rewrite ?C]; cbn; rewrite ?C; repeat (split; [reflexivity|]); (split; [intros H; try discriminate H; repeat split|]); (split; intros H; rewrite H; repeat split).
Qed.
Print Assumptions C109_partial.
Example C109_ex : resetting off /\ match talk 31 (start_io 31 266) ready free 0 with Ok (s, _, _, _, _) => c_bsy s = true /\ match run 31 s [o_reset] with Ok s' => c_bsy s' = false /\ idle s' | _ => False end | _ => False end.
Proof. split; [split; reflexivity|]. by_vm. Qed.

(** C110 fails: a read halted by the channel (address-out without select-out) never ends. As long as nobody types, the console
    answers busy and does not ask for service. *)
Theorem C110_refuted : exists s t, match talk 31 (start_io 31 266 ++ [Cyc (mkO false true false false false true) 0]) ready free 0 with Ok (s', t', _, st, _) => s' = s /\ t' = t /\ st = [0] | _ => False end /\
  opri t = false /\ c_end s = true /\ forall l, Forall untouched_act l -> exists s'', run 31 s l = Ok s'' /\ c_bsy s'' = true /\ c_req s'' = false.
Proof.
  eexists; eexists. split; [vm_compute; repeat split; reflexivity|]. split; [reflexivity|]. split; [reflexivity|]. intros l F. match goal with |- exists _, run 31 ?s l = _ /\ _ => assert (H : hung s) end.
  { split; [left; reflexivity|]. repeat split. }
  destruct (hung_run 31 l byte31 F _ H) as (s2 & E & H2). exists s2. split; [exact E|]. destruct H2 as (_ & H2 & _ & H3 & _). split; assumption.
Qed.
Print Assumptions C110_refuted.
Example C110_ex : Forall untouched_act [Poll; Chan free 0 0; Net false None; Send].
Proof. repeat (apply Forall_cons || apply Forall_nil); cbn; try exact I; try reflexivity. intros [H _]. discriminate H. Qed.

(** C111 fails: after a read that has ended the console asks for service again and again, with status 0. *)
Definition answer : list item := [EPoll; Cyc nothing 0; Cyc o_poll 0; Cyc held 0; Cyc o_command 256; Cyc held 0; Cyc o_service 0; Cyc nothing 0].
Theorem C111_refuted : match talk 31 (read_line 31 266 [65] ++ answer ++ answer ++ answer) ready free 0 with Ok (s, _, _, st, _) => st = [0; 12; 0; 0; 0] /\ c_st s = IDLE /\ c_bsy s = false | _ => False end.
Proof. by_vm. Qed.
Print Assumptions C111_refuted.
(** What holds: as long as nothing was typed during a read, an idle console asks only after the attention key. *)
Theorem C111_partial : forall s s', quiet s -> c_stk s = false -> astep 31 s Poll = Ok s' -> c_poll s = true -> c_req s' = (c_cons s && c_attn s) /\ set_req false s' = set_req false s.
Proof.
  intros s s' (Q1 & Q2 & Q3 & Q4 & Q5 & Q6) K E P. cbn [astep] in E. rewrite P, poll_eq, Q1, Q2, Q3 in E. cbn [andb orb Z.ltb Z.compare] in E. rewrite !andb_false_r in E. injection E as <-.
  unfold poll_tail. rewrite Q3, Q4, Q5. cbn [Z.ltb Z.compare negb orb andb]. rewrite !andb_false_r. destruct (c_cons s && c_attn s); [split; [reflexivity|]|split; [exact Q6|reflexivity]].
  unfold set_req. cbn. rewrite ?Q6. reflexivity.
Qed.
Print Assumptions C111_partial.
Example C111_ex : quiet ready /\ c_stk ready = false /\ c_poll ready = true /\ match astep 31 (set_attn true ready) Poll with Ok s => c_req s = true | _ => False end.
Proof. by_vm. Qed.
