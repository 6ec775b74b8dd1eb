(** What is expected of the storage control. *)
From Verif Require Export D2841.Model.
From Verif Require Export Dasd.Spec.
Open Scope Z_scope.

Definition is_byte (x : Z) : Prop := 0 <= x < 256.
(** A microinstruction as the control store can hold it: each field has the bits it has, the lowest two bits of the next
    address are not stored. *)
Definition good_mi (m : mi) : Prop :=
  0 <= CA m < 32 /\ 0 <= CB m < 4 /\ is_byte (CK m) /\ 0 <= CL m < 16 /\ 0 <= CH m < 16 /\ is_byte (CN m) /\ CN m mod 4 = 0 /\
  0 <= CD m < 32 /\ 0 <= CV m < 2 /\ 0 <= CC m < 8 /\ 0 <= CS m < 16 /\ 0 <= BP m < 2.
(** The drive that is selected is there. *)
Definition cur_ok (s : ctx) : Prop := match c_cur s with None => True | Some i => exists d, nth_error (c_disk s) i = Some (Some d) end.
Definition ctx_ok (s : ctx) : Prop :=
  (forall r, is_byte (c_r s r)) /\ is_byte (c_a s) /\ is_byte (c_b s) /\ is_byte (c_alu s) /\ is_byte (c_bo s) /\ 0 <= c_wx s < 4096 /\
  length (c_disk s) = 8%nat /\ cur_ok s.

(** *** Arithmetic *)

(** The second operand. *)
Definition operand (s : ctx) (m : mi) : Z := if CB m =? 0 then 0 else if CB m =? 1 then c_r s BY else if CB m =? 2 then CK m else c_r s DR.
(** Sum or difference with or without one more, or a logical function; and the carry. *)
Definition add (a b c : Z) : Z * bool := ((a + b + c) mod 256, 256 <=? a + b + c).
Definition sub (a b c : Z) : Z * bool := ((a - b - (1 - c)) mod 256, b + (1 - c) <=? a).
Definition compute (cc cv a b : Z) (st3 : bool) : Z * bool :=
  let c := if (cc =? 1) || (cc =? 5) || ((cc =? 6) && st3) then 1 else 0 in
  let b' := if cv =? 0 then b else 255 - b in
  if cc =? 2 then (Z.land a b', false) else if cc =? 3 then (Z.lor a b', false) else if cc =? 7 then (Z.lxor a b', false)
  else if cv =? 0 then add a b c else sub a b c.

(** *** Registers *)

(** The register the A bus is connected to, if it is one of the registers. *)
Definition source (ca : Z) : option reg :=
  if ca =? 1 then Some GL else if ca =? 2 then Some BY else if ca =? 3 then Some BX else if ca =? 4 then Some FR else if ca =? 5 then Some KL
  else if ca =? 6 then Some DL else if ca =? 7 then Some DH else if ca =? 8 then Some OP else if ca =? 9 then Some GP else if ca =? 10 then Some UR
  else if ca =? 11 then Some DW else if ca =? 12 then Some DR else if ca =? 13 then Some ER else if ca =? 28 then Some SC else None.
(** The register the result goes to; FT and FC only have bits set or reset. *)
Definition target (cd : Z) : option reg :=
  if cd =? 1 then Some GL else if cd =? 2 then Some BY else if cd =? 3 then Some BX else if cd =? 4 then Some FR else if cd =? 5 then Some KL
  else if cd =? 6 then Some DL else if cd =? 7 then Some DH else if cd =? 8 then Some OP else if cd =? 9 then Some GP else if cd =? 10 then Some UR
  else if cd =? 11 then Some DW else if cd =? 12 then Some DR else if cd =? 13 then Some FT else if cd =? 14 then Some FC else if cd =? 15 then Some IG else None.
(** The status bits, numbered from the left as in the manuals: what the field CS of a microinstruction does to bit [k]. *)
Definition cs_effect (cs : Z) (nz : bool) (k : Z) : option bool :=
  if (cs =? 1) && (k =? 0) then Some false else if (cs =? 2) && (k =? 0) then Some true
  else if (cs =? 3) && (k =? 1) then Some false else if (cs =? 4) && (k =? 1) then Some true
  else if (cs =? 5) && (k =? 2) then Some false else if (cs =? 6) && (k =? 2) && nz then Some true
  else if (cs =? 7) && (k =? 3) then Some false else if (cs =? 8) && (k =? 3) then Some true
  else if (cs =? 9) && (k =? 4) then Some false
  else if (cs =? 10) && (k =? 5) then Some false else if (cs =? 11) && (k =? 5) then Some true
  else if (cs =? 12) && (k =? 6) then Some false else if (cs =? 13) && (k =? 6) then Some true
  else if (cs =? 14) && (k =? 7) then Some false else if (cs =? 15) && (k =? 7) then Some true else None.
Definition bit_of (x k : Z) : bool := Z.testbit x (7 - k).

(** *** Branches *)

(** The conditions the two low bits of the next address are taken from. *)
Definition high_condition (s : ctx) (d : option dasd) (ch : Z) : bool :=
  match ch with
  | 1 => true
  | 2 => bit_of (c_r s ST) 0 | 4 => bit_of (c_r s ST) 2 | 5 => bit_of (c_r s ST) 4 | 6 => bit_of (c_r s ST) 6
  | 3 => bit_of (c_r s OP) 6 | 13 => bit_of (c_r s OP) 0 | 14 => bit_of (c_r s OP) 2 | 15 => bit_of (c_r s OP) 4
  | 7 => match d with Some d => match d_type d with T2303 | T2314 => true | T2311 | T2302 => false end | None => false end
  | 9 => c_carry s
  | 10 => cmdo (c_tags s) || bit_of (c_r s ER) 7
  | 11 => supo (c_tags s)
  | _ => false
  end.
Definition low_condition (s : ctx) (d : option dasd) (cl : Z) : bool :=
  match cl with
  | 1 => true
  | 2 => bit_of (c_r s ST) 3 | 3 => bit_of (c_r s ST) 5 | 4 => bit_of (c_r s ST) 7
  | 5 => negb (c_nz s)
  | 7 => match d with Some d => match d_type d with T2311 | T2314 => true | T2303 | T2302 => false end | None => false end
  | 8 => srvo (c_tags s)
  | 9 => c_srvi s && (bit_of (c_r s IG) 2 || srvo (c_tags s))
  | 10 => c_sel s
  | 11 => bit_of (c_r s OP) 1 | 12 => bit_of (c_r s OP) 3 | 13 => bit_of (c_r s OP) 5 | 15 => bit_of (c_r s OP) 7
  | 14 => c_index s
  | _ => false
  end.
Definition selected (s : ctx) : option dasd := match c_cur s with Some i => match nth_error (c_disk s) i with Some x => x | None => None end | None => None end.
Definition num (b : bool) : Z := if b then 1 else 0.

(** *** Histories *)

(** What can happen to a control: a step, a call from the channel, the end of a seek of a drive, a pack put on, a drive added. *)
Inductive event := EStep | EBus (t : tags) (bo bi : Z) | ESeek (i : nat) | EAttach (i : nat) (f : list Z) (fmt : bool) | EAdd (i : nat) (t : dtype).
Definition on_drive (i : nat) (f : dasd -> res dasd) (s : ctx) : res ctx :=
  match nth_error (c_disk s) i with Some (Some d) => let* d := f d in Ok (put_disk i d s) | _ => Ok s end.
Definition do_event (ros : Z -> mi) (s : ctx) (e : event) : res ctx :=
  match e with
  | EStep => step ros s
  | EBus t bo bi => let* r := dev s t bo bi in Ok (fst (fst r))
  | ESeek i => on_drive i seek_callback s
  | EAttach i f fmt => on_drive i (fun d => dasd_attach d f fmt) s
  | EAdd i t => match nth_error (c_disk s) i with Some None => Ok (put_disk i (new_drive t) s) | _ => Ok s end
  end.
Fixpoint do_events (ros : Z -> mi) (s : ctx) (l : list event) : res ctx :=
  match l with [] => Ok s | e :: r => let* s := do_event ros s e in do_events ros s r end.

(** *** The drives *)

(** Drive [i] is connected to the data register: its bit in the unit register, the tag for the transfer and the gate are on. *)
Definition connected (s : ctx) (i : nat) : bool :=
  bit_of (c_r s UR) (Z.of_nat i) && bit_of (c_r s FT) 0 && bit_of (c_r s FT) 7 && bit_of (c_r s FC) 5.
(** What is done to it while the next byte passes under the head. *)
Definition drive_op (s : ctx) (i : nat) : dop :=
  if connected s i then
    if bit_of (c_r s FC) 1 then ORead 0 0 0 else if bit_of (c_r s FC) 0 then OWrite (c_r s DR) (num (bit_of (c_r s FC) 7)) 0 else OStep
  else OStep.
(** The number of the first drive whose bit is on. *)
Definition first_on (u : Z) (i : nat) : Prop := (i < 8)%nat /\ bit_of u (Z.of_nat i) = true /\ forall j, (j < i)%nat -> bit_of u (Z.of_nat j) = false.

(** *** The channel *)

(** A value the control puts on the bus: the write register or the status byte of a busy unit, with odd parity. *)
Definition bus_value (s : ctx) (b : Z) : Prop := odd_bits 9 b = true /\ 0 <= b < 512 /\ (Z.land b 255 = c_r s DW \/ Z.land b 255 = Z.lor SNS_SMS SNS_BSY).
(** The lines the channel drives are as before; SELECT OUT may have been taken. *)
Definition out_lines (t t' : tags) : Prop :=
  adro t' = adro t /\ cmdo t' = cmdo t /\ srvo t' = srvo t /\ supo t' = supo t /\ hldo t' = hldo t /\ opro t' = opro t /\ (selo t' = true -> selo t = true).
(** An in tag has been raised that comes with a byte. *)
Definition raised (t t' : tags) : Prop := (adri t' = true /\ adri t = false) \/ (stai t' = true /\ stai t = false) \/ (srvi t' = true /\ srvi t = false).
