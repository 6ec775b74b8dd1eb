(** What is expected of the device lists: plain lists of registrations. *)
From Verif Require Export Device.Model.

(** *** Channels *)

(** The devices registered, oldest first, with their addresses. *)
Definition registry := list (nat * Z).
Definition on_chan (c : Z) (e : nat * Z) : bool := chan_no (snd e) =? c.

Inductive rop := RAdd (dev : nat) (addr : Z) | RDel (dev : nat) (addr : Z).
Definition reg_op (l : registry) (o : rop) : registry :=
  match o with
  | RAdd d a => l ++ [(d, a)]
  | RDel d a => filter (fun e => negb (Nat.eqb (fst e) d && on_chan (chan_no a) e)) l
  end.
Definition reg_ops (l : registry) (ops : list rop) : registry := fold_left reg_op ops l.

(** A device is added only while it is not registered, and only channels that exist are used. *)
Definition rop_ok (l : registry) (o : rop) : Prop :=
  match o with
  | RAdd d a => chan_no a < 6 /\ ~ In d (map fst l)
  | RDel d a => chan_no a < 6
  end.
Fixpoint rops_ok (l : registry) (ops : list rop) : Prop :=
  match ops with [] => True | o :: r => rop_ok l o /\ rops_ok (reg_op l o) r end.

(** The code. *)
Definition no_devices (addr : nat -> Z) (next : nat -> option nat) : reg := mkReg (repeat None 6) addr next.
Definition do_rop (fuel : nat) (g : reg) (o : rop) : res reg :=
  match o with RAdd d a => add_chan fuel g d a | RDel d a => del_chan fuel g d a end.
Fixpoint do_rops (fuel : nat) (g : reg) (l : list rop) : res reg :=
  match l with [] => Ok g | o :: r => let* g := do_rop fuel g o in do_rops fuel g r end.

(** The first device of a channel whose address agrees under the mask. *)
Definition first_match (l : registry) (addr mask : Z) : option nat :=
  option_map fst (find (fun e => on_chan (chan_no addr) e && (Z.land (snd e) mask =? Z.land addr mask)) l).

(** The devices in the order of their channels. *)
Definition by_chan (l : registry) : list nat :=
  concat (map (fun c => map fst (filter (on_chan c) l)) [0; 1; 2; 3; 4; 5]).

(** *** Disks: the registrations, newest first *)
Fixpoint remove_first (d : ptr) (l : list (nat * ptr)) : list (nat * ptr) :=
  match l with
  | [] => []
  | e :: r => if ptr_eqb (snd e) d then r else e :: remove_first d r
  end.
Definition disk_op (l : list (nat * ptr)) (a : dact) : list (nat * ptr) :=
  match a with AAdd f d => (f, d) :: l | ADel d => remove_first d l end.
Definition is_obj (a : dact) : Prop :=
  match a with AAdd _ (Obj _) => True | ADel (Obj _) => True | _ => False end.
Definition no_disks : dlist := mkDlist [] None.
