(** Model of /repo/src/device/device.c: the lists of devices on the channels, and the list of disk controllers.
    Pointers to devices are numbers; the objects behind them are never freed by this file.
    Not modelled: print_tags (a log message), failing calloc. *)
From Verif Require Export Base.Bits.
From Coq Require Export Lia Bool.
Open Scope Z_scope.
Import ListNotations.

(** *** Channels *)

(** chan[6], device.c:44, and the fields addr and next of struct _device, device.h:114-141. *)
Record reg := mkReg { g_chan : list (option nat); g_addr : nat -> Z; g_next : nat -> option nat }.

Definition set {A} (f : nat -> A) (d : nat) (v : A) : nat -> A := fun x => if Nat.eqb x d then v else f x.

(** ch = (addr >> 8) & 0x7 *)
Definition chan_no (addr : Z) : Z := Z.land (Z.shiftr addr 8) 7.
(** chan[ch]: the array has six entries. *)
Definition chan_get (g : reg) (ch : Z) : res (option nat) :=
  match nth_error (g_chan g) (Z.to_nat ch) with Some p => Ok p | None => UB end.
Definition chan_set (g : reg) (ch : Z) (p : option nat) : res reg :=
  if (Z.to_nat ch <? length (g_chan g))%nat then Ok (mkReg (upd (g_chan g) (Z.to_nat ch) p) (g_addr g) (g_next g)) else UB.

(** The loop of device.c:129. *)
Fixpoint last_dev (fuel : nat) (g : reg) (d : nat) : res nat :=
  match fuel with
  | O => NoFuel
  | S f => match g_next g d with None => Ok d | Some e => last_dev f g e end
  end.

(** add_chan, device.c:115-133 *)
Definition add_chan (fuel : nat) (g : reg) (dev : nat) (addr : Z) : res reg :=
  let ch := chan_no addr in
  let g := mkReg (g_chan g) (set (g_addr g) dev addr) (set (g_next g) dev None) in
  let* p := chan_get g ch in
  match p with
  | None => chan_set g ch (Some dev)
  | Some h =>
    let* d := last_dev fuel g h in
    Ok (mkReg (g_chan g) (g_addr g) (set (g_next g) d (Some dev)))
  end.

(** find_chan, device.c:138-149 *)
Fixpoint find_from (fuel : nat) (g : reg) (p : option nat) (addr mask : Z) : res (option nat) :=
  match p with
  | None => Ok None
  | Some d =>
    match fuel with
    | O => NoFuel
    | S f => if Z.land (g_addr g d) mask =? Z.land addr mask then Ok (Some d) else find_from f g (g_next g d) addr mask
    end
  end.
Definition find_chan (fuel : nat) (g : reg) (addr mask : Z) : res (option nat) :=
  let* p := chan_get g (chan_no addr) in find_from fuel g p addr mask.

(** The loop of device.c:170-176. *)
Fixpoint unlink (fuel : nat) (g : reg) (d dev : nat) : res reg :=
  match fuel with
  | O => NoFuel
  | S f =>
    match g_next g d with
    | None => Ok g
    | Some e => if Nat.eqb e dev then Ok (mkReg (g_chan g) (g_addr g) (set (g_next g) d (g_next g e))) else unlink f g e dev
    end
  end.
(** del_chan, device.c:154-177 *)
Definition del_chan (fuel : nat) (g : reg) (dev : nat) (addr : Z) : res reg :=
  let ch := chan_no addr in
  let* p := chan_get g ch in
  match p with
  | None => Ok g
  | Some h => if Nat.eqb h dev then chan_set g ch (g_next g dev) else unlink fuel g h dev
  end.

(** system_init, device.c:79-92, and system_shutdown, device.c:97-110: the devices for which the function is called.
    [has d] tells whether the pointer to the function is not null. The call leaves the lists alone. *)
Fixpoint calls_from (fuel : nat) (g : reg) (has : nat -> bool) (p : option nat) : res (list nat) :=
  match p with
  | None => Ok []
  | Some d =>
    match fuel with
    | O => NoFuel
    | S f => let* r := calls_from f g has (g_next g d) in Ok ((if has d then [d] else []) ++ r)
    end
  end.
Fixpoint calls_chans (fuel : nat) (g : reg) (has : nat -> bool) (l : list (option nat)) : res (list nat) :=
  match l with
  | [] => Ok []
  | p :: r => let* a := calls_from fuel g has p in let* b := calls_chans fuel g has r in Ok (a ++ b)
  end.
Definition system_calls (fuel : nat) (g : reg) (has : nat -> bool) : res (list nat) := calls_chans fuel g has (g_chan g).

(** *** Disks *)

(** A pointer to void: null, a disk list node, or any other object. *)
Inductive ptr := Null | Node (n : nat) | Obj (n : nat).
Definition ptr_eqb (a b : ptr) : bool :=
  match a, b with Null, Null => true | Node m, Node n => Nat.eqb m n | Obj m, Obj n => Nat.eqb m n | _, _ => false end.

(** struct _disk, device.h:144-148; the nodes, by number, [None] when freed; the head of the list. *)
Record dnode := mkDnode { n_step : nat; n_disk : ptr; n_next : option nat }.
Record dlist := mkDlist { l_nodes : list (option dnode); l_head : option nat }.

Definition node (s : dlist) (n : nat) : res dnode :=
  match nth_error (l_nodes s) n with Some (Some d) => Ok d | _ => UB end.

(** add_disk, device.c:182-195; calloc gives a node that is not in use. *)
Definition add_disk (s : dlist) (fnc : nat) (drive : ptr) : dlist :=
  mkDlist (l_nodes s ++ [Some (mkDnode fnc drive (l_head s))]) (Some (length (l_nodes s))).

(** The loop of device.c:210-221. *)
Fixpoint del_from (fuel : nat) (s : dlist) (prev d : option nat) (drive : ptr) : res dlist :=
  match d with
  | None => Ok s
  | Some i =>
    match fuel with
    | O => NoFuel
    | S f =>
      let* x := node s i in
      if ptr_eqb (n_disk x) drive then
        let* s := match prev with
                  | None => Ok (mkDlist (l_nodes s) (n_next x))
                  | Some p => let* y := node s p in
                              Ok (mkDlist (upd (l_nodes s) p (Some (mkDnode (n_step y) (n_disk y) (n_next x)))) (l_head s))
                  end in
        Ok (mkDlist (upd (l_nodes s) i None) (l_head s))
      else del_from f s (Some i) (n_next x) drive
    end
  end.
(** del_disk, device.c:200-222. The head of the list, a pointer to a node, is compared with the drive first. *)
Definition head_ptr (s : dlist) : ptr := match l_head s with None => Null | Some n => Node n end.
Definition del_disk (fuel : nat) (s : dlist) (drive : ptr) : res dlist :=
  if ptr_eqb (head_ptr s) drive then
    match l_head s with
    | None => UB
    | Some n => let* x := node s n in Ok (mkDlist (l_nodes s) (n_next x))
    end
  else del_from fuel s None (l_head s) drive.

(** What a step routine does to the list. *)
Inductive dact := AAdd (fnc : nat) (drive : ptr) | ADel (drive : ptr).
Definition act (fuel : nat) (s : dlist) (a : dact) : res dlist :=
  match a with AAdd f d => Ok (add_disk s f d) | ADel d => del_disk fuel s d end.
Fixpoint acts (fuel : nat) (s : dlist) (l : list dact) : res dlist :=
  match l with [] => Ok s | a :: r => let* s := act fuel s a in acts fuel s r end.

(** step_disk, device.c:227-235: the calls made. [does fnc drive] is what the routine does to the list. *)
Fixpoint step_from (fuel : nat) (does : nat -> ptr -> list dact) (s : dlist) (d : option nat) : res (dlist * list (nat * ptr)) :=
  match d with
  | None => Ok (s, [])
  | Some i =>
    match fuel with
    | O => NoFuel
    | S f =>
      let* x := node s i in
      let* s := acts fuel s (does (n_step x) (n_disk x)) in
      let* y := node s i in
      let* r := step_from f does s (n_next y) in
      Ok (fst r, (n_step x, n_disk x) :: snd r)
    end
  end.
Definition step_disk (fuel : nat) (does : nat -> ptr -> list dact) (s : dlist) : res (dlist * list (nat * ptr)) :=
  step_from fuel does s (l_head s).
