(** Independent specification of the scheduler: a list of (deadline, call) in firing order, with absolute
    deadlines, no pointers and no deltas. *)
From Verif Require Import Base.Outcome Event.Model.

Record spec := Spec {
  p_pending : list (Z * call);   (* in firing order *)
  p_firing : option call;        (* the callback advance() is running, if any *)
  p_now : Z;
  p_log : list obs }.

(** A new event goes behind everything due earlier and in front of everything due at the same tick or later. *)
Fixpoint enqueue (k : Z) (c : call) (l : list (Z * call)) : list (Z * call) :=
  match l with
  | [] => [(k, c)]
  | (k', c') :: r => if k <=? k' then (k, c) :: l else (k', c') :: enqueue k c r
  end.

Definition matches (d f : Z) (c : call) : bool := (c_dev c =? d) && (c_func c =? f).

Definition pend_match (d f : Z) (e : Z * call) : bool := matches d f (snd e).

(** Remove the first event of device [d] and callback [f]. *)
Fixpoint dequeue (d f : Z) (l : list (Z * call)) : list (Z * call) :=
  match l with
  | [] => []
  | e :: r => if pend_match d f e then r else e :: dequeue d f r
  end.

(** The contract under which the code can be used: delays are not negative; a cancel does not name the
    callback that is being run by advance(), and the event it finds, if any, is the next one due and no callback is running
    from advance(). *)
Definition cancel_ok (s : spec) (d f : Z) : bool :=
  match p_firing s with
  | Some c => negb (matches d f c) && negb (existsb (pend_match d f) (p_pending s))
  | None =>
    match p_pending s with
    | [] => true
    | e :: r => pend_match d f e || negb (existsb (pend_match d f) r)
    end
  end.

Section WithCallbacks.
Variable cb : list obs -> call -> list op.

(** [UB] here means: the client left the contract. *)
Fixpoint sexec (fuel : nat) (s : spec) (ops : list op) : res spec :=
  match ops with
  | [] => Ok s
  | o :: rest =>
    match fuel with
    | O => NoFuel
    | S fuel' =>
      match o with
      | Add c t =>
        let lg := Added (p_now s) c t :: p_log s in
        if t <? 0 then UB
        else if t =? 0 then
          let s1 := Spec (p_pending s) (p_firing s) (p_now s) (Fired (p_now s) c :: lg) in
          let* s2 := sexec fuel' s1 (cb (p_log s1) c) in
          sexec fuel' s2 rest
        else sexec fuel' (Spec (enqueue (p_now s + t) c (p_pending s)) (p_firing s) (p_now s) lg) rest
      | Cancel d f =>
        if cancel_ok s d f then
          sexec fuel' (Spec (dequeue d f (p_pending s)) (p_firing s) (p_now s)
                            (Cancelled (p_now s) d f :: p_log s)) rest
        else UB
      end
    end
  end.

(** Run everything that is due now. *)
Fixpoint sfire (fuel : nat) (s : spec) : res spec :=
  match p_pending s with
  | [] => Ok s
  | (k, c) :: r =>
    if k =? p_now s then
      match fuel with
      | O => NoFuel
      | S fuel' =>
        let s1 := Spec r (Some c) (p_now s) (Fired (p_now s) c :: p_log s) in
        let* s2 := sexec fuel' s1 (cb (p_log s1) c) in
        sfire fuel' (Spec (p_pending s2) None (p_now s2) (p_log s2))
      end
    else Ok s
  end.

Definition sadvance (fuel : nat) (s : spec) : res spec :=
  sfire fuel (Spec (p_pending s) (p_firing s) (p_now s + 1) (p_log s)).

Fixpoint srun (fuel : nat) (s : spec) (h : list top) : res spec :=
  match h with
  | [] => Ok s
  | Do o :: r => let* s1 := sexec fuel s [o] in srun fuel s1 r
  | Tick :: r => let* s1 := sadvance fuel s in srun fuel s1 r
  end.
End WithCallbacks.

Definition sinit : spec := Spec [] None 0 [].

(** Counting in a log. *)
Definition call_eqb (a b : call) : bool :=
  (c_dev a =? c_dev b) && (c_func a =? c_func b) && (c_arg a =? c_arg b) && (c_iarg a =? c_iarg b).

(** How often [c] was invoked at tick [k]. *)
Definition fired_at (k : Z) (c : call) (lg : list obs) : nat :=
  length (filter (fun o => match o with Fired k' c' => (k' =? k) && call_eqb c' c | _ => false end) lg).

(** How often [c] was scheduled so as to be due at tick [k]. *)
Definition due_at (k : Z) (c : call) (lg : list obs) : nat :=
  length (filter (fun o => match o with Added j c' t => (j + t =? k) && call_eqb c' c | _ => false end) lg).

Definition no_cancel (lg : list obs) : Prop := forall k d f, ~ In (Cancelled k d f) lg.

(** No cancel names the device and callback of [c]. *)
Definition never_cancelled (c : call) (lg : list obs) : Prop :=
  forall k, ~ In (Cancelled k (c_dev c) (c_func c)) lg.

(** What is pending, read off the memory: follow the next pointers from the head, adding up the deltas.
    [None] if a dangling pointer is met. *)
Fixpoint walk (fuel : nat) (h : heap) (p : option nat) (b : Z) : option (list (Z * call)) :=
  match p with
  | None => Some []
  | Some a =>
    match fuel with
    | O => None
    | S fuel' =>
      match load h a with
      | None => None
      | Some n =>
        match walk fuel' h (n_next n) (b + n_time n) with
        | None => None
        | Some r => Some ((b + n_time n, n_call n) :: r)
        end
      end
    end
  end.

Definition pending_of (s : sched) : option (list (Z * call)) :=
  walk (length (s_heap s)) (s_heap s) (s_head s) (s_now s).

(** Clients that only schedule, with delays that are not negative. *)
Definition op_add (o : op) : Prop := match o with Add _ t => 0 <= t | Cancel _ _ => False end.
Definition cb_adds (cb : list obs -> call -> list op) : Prop := forall lg c, Forall op_add (cb lg c).
Definition top_add (o : top) : Prop := match o with Do o => op_add o | Tick => True end.

(** Clients that never schedule the call [c]. *)
Definition op_not (c : call) (o : op) : Prop := match o with Add c' _ => c' <> c | Cancel _ _ => True end.
Definition cb_not (c : call) (cb : list obs -> call -> list op) : Prop := forall lg c', Forall (op_not c) (cb lg c').
Definition top_not (c : call) (o : top) : Prop := match o with Do o => op_not c o | Tick => True end.

Definition is_tick (o : top) : bool := match o with Tick => true | Do _ => false end.
Definition ticks (h : list top) : Z := Z.of_nat (length (filter is_tick h)).

(** The state after a history that respects the contract. *)
Definition reached (cb : list obs -> call -> list op) (s : sched) : Prop :=
  exists fuel h sp, srun cb fuel sinit h = Ok sp /\ run cb fuel init_event h = Ok s.

(** Clients that only schedule, with delays of at least one tick. *)
Definition op_later (o : op) : Prop := match o with Add _ t => 0 < t | Cancel _ _ => False end.
