(** Model of the event scheduler, /repo/src/event.c. *)
From Verif Require Import Base.Outcome.

(** What a callback invocation is made of: func(dev, arg, iarg).  Pointers are opaque integers.
    /repo/src/event.h:32 (_callback), /repo/src/event.h:34-43 (struct _event). *)
Record call := Call { c_dev : Z; c_func : Z; c_arg : Z; c_iarg : Z }.

(** Scheduler calls a client (or a callback) can make.  event.c:41 add_event, event.c:102 cancel_event. *)
Inductive op :=
| Add (c : call) (t : Z)
| Cancel (d f : Z).

(** Observable log, newest first: which calls were scheduled (tick, call, delay) and which callbacks were
    invoked (tick).  A tick is the number of advance() calls made so far; the C code keeps no such counter,
    it is only used to talk about time. *)
Inductive obs :=
| Added (k : Z) (c : call) (t : Z)
| Cancelled (k : Z) (d f : Z)
| Fired (k : Z) (c : call).

(** struct _event, event.h:34-43. *)
Record node := Node { n_next : option nat; n_prev : option nat; n_time : Z; n_call : call }.

(** The heap of struct _event objects: an address is an index, [None] marks a freed object.  malloc always
    succeeds and never reuses an address (simplification: malloc failure, event.c:53-55, is not modelled). *)
Notation heap := (list (option node)).

Definition load (h : heap) (a : nat) : option node :=
  match nth_error h a with Some (Some n) => Some n | _ => None end.
Definition store (h : heap) (a : nat) (n : node) : heap := upd h a (Some n).
Definition release (h : heap) (a : nat) : heap := upd h a None.

(** Global variables event_head, event_tail (event.c:30) plus the ghost clock and log. *)
Record sched := Sched {
  s_heap : heap; s_head : option nat; s_tail : option nat; s_now : Z; s_log : list obs }.

(** init_event, event.c:33-37. *)
Definition init_event : sched := Sched [] None None 0 [].

Definition set_next (n : node) (x : option nat) := Node x (n_prev n) (n_time n) (n_call n).
Definition set_prev (n : node) (x : option nat) := Node (n_next n) x (n_time n) (n_call n).
Definition set_time (n : node) (x : Z) := Node (n_next n) (n_prev n) x (n_call n).

(** The do-while of add_event, event.c:70-97 (including the append after it).  [new]/[t] are the freshly allocated node and its current
    new_event->time; fuel bounds the number of nodes visited.  The new node's fields are written to the heap
    when the loop exits (its address is fresh, nobody can observe it before). *)
Fixpoint add_loop (fuel : nat) (h : heap) (hd tl : option nat) (new : nat) (c : call) (t : Z) (p : nat)
  : res (heap * option nat * option nat) :=
  match fuel with
  | O => NoFuel
  | S fuel' =>
    match load h p with
    | None => UB
    | Some pn =>
      if t <=? n_time pn then
        (* event.c:73-86 insert in front of p *)
        let h1 := store h new (Node (Some p) (n_prev pn) t c) in
        let h2 := store h1 p (Node (n_next pn) (Some new) (n_time pn - t) (n_call pn)) in
        match n_prev pn with
        | Some q =>
          match load h2 q with
          | None => UB
          | Some qn => Ok (store h2 q (set_next qn (Some new)), hd, tl)
          end
        | None => Ok (h2, Some new, tl)
        end
      else
        (* event.c:88-90 *)
        match n_next pn with
        | Some p' => add_loop fuel' h hd tl new c (t - n_time pn) p'
        | None =>
          (* event.c:92-96 put it on the tail *)
          match tl with
          | None => UB
          | Some q =>
            let h1 := store h new (Node None (Some q) (t - n_time pn) c) in
            match load h1 q with
            | None => UB
            | Some qn => Ok (store h1 q (set_next qn (Some new)), hd, Some new)
            end
          end
        end
    end
  end.

(** add_event for time <> 0, event.c:53-97. *)
Definition add_event (s : sched) (c : call) (t : Z) : res sched :=
  let lg := Added (s_now s) c t :: s_log s in
  let new := length (s_heap s) in
  let h0 := s_heap s ++ [Some (Node None None t c)] in
  match s_head s with
  | None => Ok (Sched h0 (Some new) (Some new) (s_now s) lg)
  | Some p =>
    let* r := add_loop (S (length h0)) h0 (s_head s) (s_tail s) new c t p in
    let '(h, hd, tl) := r in
    Ok (Sched h hd tl (s_now s) lg)
  end.

(** The do-while of cancel_event, event.c:111-136.  Note line 125: for an event that is not at the head the
    code assigns ptr_event->next to itself, the predecessor's next pointer is left alone. *)
Fixpoint cancel_loop (fuel : nat) (h : heap) (hd tl : option nat) (d f : Z) (p : nat)
  : res (heap * option nat * option nat) :=
  match fuel with
  | O => NoFuel
  | S fuel' =>
    match load h p with
    | None => UB
    | Some pn =>
      if (c_dev (n_call pn) =? d) && (c_func (n_call pn) =? f) then
        let* r1 :=
          match n_next pn with
          | Some x =>
            match load h x with
            | None => UB
            | Some xn => Ok (store h x (Node (n_next xn) (n_prev pn) (n_time xn + n_time pn) (n_call xn)), tl)
            end
          | None => Ok (h, n_prev pn)
          end in
        let '(h1, tl1) := r1 in
        let hd1 := match n_prev pn with Some _ => hd | None => n_next pn end in
        Ok (release h1 p, hd1, tl1)
      else
        match n_next pn with
        | Some p' => cancel_loop fuel' h hd tl d f p'
        | None => Ok (h, hd, tl)
        end
    end
  end.

(** cancel_event, event.c:101-139. *)
Definition cancel_event (s : sched) (d f : Z) : res sched :=
  let lg := Cancelled (s_now s) d f :: s_log s in
  match s_head s with
  | None => Ok (Sched (s_heap s) (s_head s) (s_tail s) (s_now s) lg)
  | Some p =>
    let* r := cancel_loop (S (length (s_heap s))) (s_heap s) (s_head s) (s_tail s) d f p in
    let '(h, hd, tl) := r in
    Ok (Sched h hd tl (s_now s) lg)
  end.

Definition log_fired (s : sched) (c : call) : sched :=
  Sched (s_heap s) (s_head s) (s_tail s) (s_now s) (Fired (s_now s) c :: s_log s).

Section WithCallbacks.
(** The behaviour of the callbacks: which scheduler calls the callback [c] makes when invoked after the
    history [log].  Arbitrary, so any deterministic client code (with any private state) is covered. *)
Variable cb : list obs -> call -> list op.

(** A sequence of scheduler calls, with the nested callbacks of zero-delay events
    (add_event, event.c:48-51). *)
Fixpoint exec (fuel : nat) (s : sched) (ops : list op) : res sched :=
  match ops with
  | [] => Ok s
  | o :: rest =>
    match fuel with
    | O => NoFuel
    | S fuel' =>
      match o with
      | Add c t =>
        if t =? 0 then
          let s1 := log_fired (Sched (s_heap s) (s_head s) (s_tail s) (s_now s)
                                 (Added (s_now s) c t :: s_log s)) c in
          let* s2 := exec fuel' s1 (cb (s_log s1) c) in
          exec fuel' s2 rest
        else
          let* s1 := add_event s c t in exec fuel' s1 rest
      | Cancel d f =>
        let* s1 := cancel_event s d f in exec fuel' s1 rest
      end
    end
  end.

(** The while loop of advance, event.c:152-163.  ptr_event is event_head at every loop entry; after the
    callback the code reads ptr_event->next from the node whatever the callback did to it. *)
Fixpoint fire (fuel : nat) (s : sched) : res sched :=
  match s_head s with
  | None => Ok s
  | Some p =>
    match load (s_heap s) p with
    | None => UB
    | Some pn =>
      if n_time pn =? 0 then
        match fuel with
        | O => NoFuel
        | S fuel' =>
          let s1 := log_fired s (n_call pn) in
          let* s2 := exec fuel' s1 (cb (s_log s1) (n_call pn)) in
          match load (s_heap s2) p with
          | None => UB                      (* use after free / double free *)
          | Some pn2 =>
            let h1 := release (s_heap s2) p in
            match n_next pn2 with
            | None => fire fuel' (Sched h1 None None (s_now s2) (s_log s2))
            | Some x =>
              match load h1 x with
              | None => UB
              | Some xn =>
                fire fuel' (Sched (store h1 x (set_prev xn None)) (Some x) (s_tail s2) (s_now s2) (s_log s2))
              end
            end
          end
        end
      else Ok s
    end
  end.

(** advance, event.c:142-164. *)
Definition advance (fuel : nat) (s : sched) : res sched :=
  let s0 := Sched (s_heap s) (s_head s) (s_tail s) (s_now s + 1) (s_log s) in
  match s_head s with
  | None => Ok s0
  | Some p =>
    match load (s_heap s) p with
    | None => UB
    | Some pn =>
      fire fuel (Sched (store (s_heap s) p (set_time pn (n_time pn - 1))) (s_head s) (s_tail s)
                       (s_now s + 1) (s_log s))
    end
  end.

(** A top-level history: scheduler calls made by the simulator between clock ticks, and ticks. *)
Inductive top := Do (o : op) | Tick.

Fixpoint run (fuel : nat) (s : sched) (h : list top) : res sched :=
  match h with
  | [] => Ok s
  | Do o :: r => let* s1 := exec fuel s [o] in run fuel s1 r
  | Tick :: r => let* s1 := advance fuel s in run fuel s1 r
  end.
End WithCallbacks.
