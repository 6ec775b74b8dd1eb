(** The channel interface: tags and busses, /repo/src/device/device.h:76-94 and the parity table of xlat.c.
    The tags are a word of bits; the model has one boolean for each bit that has a meaning (the others are never touched).
    CHAN_SEL_IN is the same bit as CHAN_SEL_OUT: a device that does not take the selection passes the bit on. *)
From Verif Require Export Base.Bits Xlat.Tables.
From Coq Require Export Lia Bool.
Open Scope Z_scope.
Import ListNotations.

Record tags := mkT {
  selo : bool; adro : bool; cmdo : bool; srvo : bool; supo : bool; hldo : bool; opro : bool;   (* from the channel *)
  opri : bool; adri : bool; stai : bool; srvi : bool; reqi : bool }.                           (* to the channel *)

Definition set_selo b t := mkT b (adro t) (cmdo t) (srvo t) (supo t) (hldo t) (opro t) (opri t) (adri t) (stai t) (srvi t) (reqi t).
Definition set_opri b t := mkT (selo t) (adro t) (cmdo t) (srvo t) (supo t) (hldo t) (opro t) b (adri t) (stai t) (srvi t) (reqi t).
Definition set_adri b t := mkT (selo t) (adro t) (cmdo t) (srvo t) (supo t) (hldo t) (opro t) (opri t) b (stai t) (srvi t) (reqi t).
Definition set_stai b t := mkT (selo t) (adro t) (cmdo t) (srvo t) (supo t) (hldo t) (opro t) (opri t) (adri t) b (srvi t) (reqi t).
Definition set_srvi b t := mkT (selo t) (adro t) (cmdo t) (srvo t) (supo t) (hldo t) (opro t) (opri t) (adri t) (stai t) b (reqi t).
Definition set_reqi b t := mkT (selo t) (adro t) (cmdo t) (srvo t) (supo t) (hldo t) (opro t) (opri t) (adri t) (stai t) (srvi t) b.

(** device_state_t, device.h:100-114. *)
Inductive dstate := IDLE | BUSY | INIT_SEL | COMMAND | STATUS | STATUS_ACCEPT | STATUS_WAIT | END_STATUS | END_ACCEPT
  | WAIT_DEVEND | OPR | DATA_1 | DATA_2.

(** x | odd_parity[x]. *)
Definition with_parity (x : Z) : res Z := let* p := tab odd_parity x in Ok (Z.lor x p).
(** ((bus_out ^ odd_parity[bus_out & 0xff]) & 0x100) != 0. *)
Definition bad_parity (bo : Z) : res bool :=
  let* p := tab odd_parity (Z.land bo 255) in Ok (negb (Z.land (Z.lxor bo p) 256 =? 0)).

(** Status bits, device.h:42-49. *)
Definition SNS_ATTN := 128. Definition SNS_SMS := 64. Definition SNS_CTLEND := 32. Definition SNS_BSY := 16.
Definition SNS_CHNEND := 8. Definition SNS_DEVEND := 4. Definition SNS_UNITCHK := 2. Definition SNS_UNITEXP := 1.

Definition bit (x m : Z) : bool := negb (Z.land x m =? 0).

Lemma land_byte x : 0 <= Z.land x 255 < 256.
Proof. change 255 with (Z.ones 8). rewrite Z.land_ones by lia. apply Z.mod_pos_bound. lia. Qed.
Lemma with_parity_ok x : 0 <= x < 256 -> exists y, with_parity x = Ok y /\ odd_bits 9 y = true /\ Z.land y 255 = x /\ 0 <= y < 512.
Proof.
  intros H. pose proof (sweep 256 (fun b => match with_parity b with Ok y => odd_bits 9 y && (Z.land y 255 =? b) && (0 <=? y) && (y <? 512) | _ => false end)
    ltac:(vm_compute; reflexivity) x H) as S. cbn beta in S. destruct (with_parity x) as [y| |]; try discriminate. exists y.
  apply andb_true_iff in S. destruct S as [S S4]. apply andb_true_iff in S. destruct S as [S S3]. apply andb_true_iff in S. destruct S as [S1 S2]. repeat split; try assumption; lia.
Qed.
Lemma bad_parity_ok bo : exists b, bad_parity bo = Ok b.
Proof. unfold bad_parity. destruct (tab_ok odd_parity (Z.land bo 255)) as [p E]; [exact (land_byte bo)|]. rewrite E. eexists. reflexivity. Qed.
Lemma parity_good x y : 0 <= x < 256 -> with_parity x = Ok y -> bad_parity y = Ok false.
Proof.
  intros H E. pose proof (sweep 256 (fun b => match with_parity b with Ok y => match bad_parity y with Ok f => negb f | _ => false end | _ => false end) ltac:(vm_compute; reflexivity) x H) as S.
  cbn beta in S. rewrite E in S. destruct (bad_parity y) as [[|]| |]; try discriminate. reflexivity.
Qed.
