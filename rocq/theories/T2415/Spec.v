(** What is expected of the tape control. *)
From Verif Require Export T2415.Model Tape.Spec.

(** Whatever can happen to the device: a cycle of the channel, a callback of a unit, a key on a drive. *)
Inductive act := Chan (t : tags) (bo bi : Z) | Fire (fuel : nat) (junk : Z) (k : cb) (u : Z) | Key (u : Z) (k : key).
Definition astep (a : Z) (s : dev) (x : act) : res dev :=
  match x with
  | Chan t bo bi => let* r := dev_step a s t bo bi in Ok (fst (fst r))
  | Fire fuel junk k u => fire fuel junk s k u
  | Key u k => do_key s u k
  end.
Fixpoint run (a : Z) (s : dev) (l : list act) : res dev :=
  match l with [] => Ok s | x :: r => let* s' := astep a s x in run a s' r end.

(** *** The drives *)
(** All six drives are there; each has its buffer. *)
Definition six_drives (l : list (option tape)) : Prop :=
  length l = 6%nat /\ forall o, In o l -> exists t, o = Some t /\ win_ok (t_win t).
(** The channel addresses only the drives 0 to 5 of this control, the operator only touches these. *)
Definition six_units (a : Z) (x : act) : Prop :=
  match x with
  | Chan t bo _ => adro t = true -> Z.land bo 248 = Z.land a 248 -> Z.land bo 7 < 6
  | Fire _ _ _ _ => True
  | Key u _ => 0 <= u < 6
  end.
(** No other tape is put on drive [u]. *)
Definition not_loaded (u : Z) (x : act) : Prop := match x with Key u' (KLoad _ _ _ _ _) => u' <> u | _ => True end.

(** *** Selection *)
Definition resetting (t : tags) : Prop := opro t = false /\ supo t = false.
(** The channel selects the control: select-out is up on a free interface, with the address of one of its drives, or without
    any address while the control is asking for service: it has a request or a refused status, or a drive has become ready. *)
Definition asking (s : dev) : Prop := d_req s = true \/ d_stk s = true \/ has (d_rdyf s) (d_scan s) = true.
Definition selecting (a : Z) (s : dev) (t : tags) (bo : Z) : Prop :=
  opro t = true /\ opri t = false /\ selo t = true /\
  ((adro t = true /\ Z.land bo 248 = Z.land a 248) \/ (adro t = false /\ supo t = false /\ asking s)).
(** The device takes part: it raises a tag (except request-in), changes bus-in, or does not pass on select-out. *)
Definition drives (t : tags) (bi : Z) (t' : tags) (bi' : Z) : Prop :=
  (opri t = false /\ opri t' = true) \/ (adri t = false /\ adri t' = true) \/ (stai t = false /\ stai t' = true) \/
  (srvi t = false /\ srvi t' = true) \/ bi' <> bi \/ selo t' <> selo t.
Definition owned (a : Z) (s : dev) (l : list act) : Prop :=
  exists pre t bo bi post s0, l = pre ++ Chan t bo bi :: post /\ run a s pre = Ok s0 /\ selecting a s0 t bo /\
    (forall t' bo' bi', In (Chan t' bo' bi') post -> ~ resetting t') /\
    (forall p q s1, post = p ++ q -> run a s (pre ++ Chan t bo bi :: p) = Ok s1 -> d_st s1 <> IDLE).
Definition odd9 (b : Z) : Prop := 0 <= b < 512 /\ odd_bits 9 b = true.

(** *** What the channel sees *)
(** The bytes shown with service-in, and the status bytes shown with status-in, while things happen to the device. *)
Fixpoint seen (a : Z) (s : dev) (l : list act) : res (dev * list Z * list Z) :=
  match l with
  | [] => Ok (s, [], [])
  | x :: r =>
    let* (s1, d, st) :=
      match x with
      | Chan t bo bi =>
        let* (s1, t', b) := dev_step a s t bo bi in
        Ok (s1, if negb (srvi t) && srvi t' then [Z.land b 255] else [], if negb (stai t) && stai t' then [Z.land b 255] else [])
      | _ => let* s1 := astep a s x in Ok (s1, [], [])
      end in
    let* (s2, ds, sts) := seen a s1 r in
    Ok (s2, d ++ ds, st ++ sts)
  end.
Definition out_tags selo adro cmdo srvo := mkT selo adro cmdo srvo false true true.
(** The channel selects the device with address byte [pa], gives it the command [cmd], both with parity, and takes the
    initial status. *)
Definition begin_op (pa cmd : Z) : list act :=
  [Chan (out_tags true true false false false false false false false) pa 0;
   Chan (out_tags true false false false true false false false false) 0 0;
   Chan (out_tags false false true false true true false false false) cmd 0;
   Chan (out_tags false false false false true false false false false) 0 0;
   Chan (out_tags false false false true true false true false false) 0 0].
(** Nothing happens on the channel. *)
Definition quiet : act := Chan (out_tags false false false false true false false false false) 0 0.
(** After [w] quiet cycles a frame comes under the head of drive [u], and the channel takes the byte with service-out. *)
Definition read_byte_op (fuel : nat) (junk u : Z) (w : nat) : list act :=
  repeat quiet w ++ [Fire fuel junk CbTape u; quiet; quiet; Chan (out_tags false false false true true false false true false) 0 0].
(** The status is shown, taken with service-out, and the channel lets go of the device. *)
Definition take_status : list act :=
  [quiet; quiet; Chan (out_tags false false false true true false true false false) 0 0;
   Chan (out_tags false false false false false false false false false) 0 0].
(** The end of the record and the gap, or the tape mark. *)
Definition end_op (fuel : nat) (junk u : Z) (x : item) : list act :=
  match x with
  | Rec _ => [Fire fuel junk CbTape u; Fire fuel junk CbTape u; Fire fuel junk CbDone u]
  | Mark => [Fire fuel junk CbTape u; Fire fuel junk CbDone u]
  end.
(** A whole read command for a block with as many frames as [ws] has elements. *)
Definition read_op (fuel : nat) (junk pa u : Z) (x : item) (ws : list nat) : list act :=
  begin_op pa 2 ++ concat (map (read_byte_op fuel junk u) ws) ++ end_op fuel junk u x ++ take_status.
Definition frames_of (x : item) : list Z := match x with Rec d => d | Mark => [] end.
(** Channel end and device end, with unit exception for a tape mark. *)
Definition end_status (x : item) : Z := match x with Rec _ => 12 | Mark => 13 end.

(** Several commands one after the other, and what the channel saw in each: the data and the status bytes. *)
Fixpoint commands (a : Z) (s : dev) (l : list (list act)) : res (dev * list (list Z * list Z)) :=
  match l with
  | [] => Ok (s, [])
  | ops :: r => let* (s1, d, st) := seen a s ops in let* (s2, out) := commands a s1 r in Ok (s2, (d, st) :: out)
  end.

(** Between two commands: drive [u] with tape [t] is ready and nothing is in progress. *)
Definition between (u : Z) (t : tape) (s : dev) : Prop :=
  d_st s = IDLE /\ d_busy s = false /\ d_status s = 0 /\ d_stk s = false /\ d_rdyf s = 0 /\ d_sense0 s = 0 /\ bit (d_sense1 s) S_NOISE = false /\ d_sense3 s = 0 /\
  Z.land (Z.lor (d_rew s) (d_run s)) (2 ^ u) = 0 /\ d_pend s = [] /\
  nth_error (d_tapes s) (Z.to_nat u) = Some (Some t) /\ tape_ready t = true.
Definition ready9 (u : Z) (t : tape) (s : dev) : Prop := between u t s /\ tape_9_track t = true.

(** *** The seven-track converter and translator *)
(** The characters made of the bytes the channel gives one after the other, and the bytes made of the characters read. *)
Fixpoint conv_write (cc cbuf : Z) (l : list Z) : list Z :=
  match l with [] => [] | b :: r => let '(cc', cbuf', c) := conv_out cc cbuf b in c :: conv_write cc' cbuf' r end.
Fixpoint conv_read (cc cbuf : Z) (l : list Z) : list Z :=
  match l with [] => [] | c :: r => let '(cc', cbuf', b, rdy) := conv_in cc cbuf c in (if rdy : bool then [b] else []) ++ conv_read cc' cbuf' r end.
(** Four six-bit characters hold three bytes, first bits first. *)
Definition pack (a b c : Z) : list Z := [a / 4; a mod 4 * 16 + b / 16; b mod 16 * 4 + c / 64; c mod 64].
(** A frame of six bits and a parity bit has odd parity. *)
Definition odd7 (b : Z) : bool := odd_bits 7 b.

(** *** Tags *)
(** The device alone on the interface: what it leaves on the tags to the channel is there in the next cycle.  [any]: whether
    the channel may send command bytes with bit 3 (10), and reset the device in the middle of a busy sequence. *)
Definition in_tags (t : tags) := (opri t, adri t, stai t, srvi t).
Inductive conn (any : Prop) (a : Z) (l : list (option tape)) : dev -> tags -> Prop :=
| conn_init t : in_tags t = (false, false, false, false) -> conn any a l (init_dev l) t
| conn_chan s t t1 bo bi s' t' bi' : conn any a l s t -> in_tags t1 = in_tags t ->
    any \/ ((cmdo t1 = true -> Z.testbit bo 4 = false) /\ (resetting t1 -> d_st s <> BUSY)) ->
    dev_step a s t1 bo bi = Ok (s', t', bi') -> conn any a l s' t'
| conn_fire s t fuel junk k u s' : conn any a l s t -> fire fuel junk s k u = Ok s' -> conn any a l s' t
| conn_key s t u k s' : conn any a l s t -> do_key s u k = Ok s' -> conn any a l s' t.
(** At most one of address-in, status-in and service-in is up, and only with operational-in, except for the status-in of the
    busy sequence. *)
Definition tags_ok (s : dev) (t : tags) : Prop :=
  (adri t = true -> opri t = true /\ stai t = false /\ srvi t = false) /\
  (srvi t = true -> opri t = true /\ stai t = false /\ adri t = false) /\
  (stai t = true -> (opri t = true \/ d_st s = BUSY) /\ adri t = false /\ srvi t = false).
