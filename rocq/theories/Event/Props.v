(** Properties C01-C05 of the event scheduler. *)
From Verif Require Import Base.Outcome Event.Model Event.Spec Event.Proofs Event.Facts Event.Facts2.

(** *** Refinement: as long as the client respects the contract written into [srun] (delays not negative,
    cancels only of the next event or of absent ones), the pointer code never leaves defined behaviour and
    produces, for every history and every behaviour of the callbacks, exactly the log of the specification
    with absolute deadlines. *)
Theorem C05_contract_runs_are_defined_and_refine_partial :
  forall cb fuel h sp, srun cb fuel sinit h = Ok sp ->
  exists s, run cb fuel init_event h = Ok s /\ s_now s = ticks h /\ s_log s = p_log sp /\
    pending_of s = Some (p_pending sp) /\
    (forall c, never_cancelled c (s_log s) -> forall k, k <= s_now s ->
       fired_at k c (s_log s) = due_at k c (s_log s)) /\
    (forall c k, s_now s < k -> fired_at k c (s_log s) = 0%nat).
Proof. exact run_counts. Qed.
Print Assumptions C05_contract_runs_are_defined_and_refine_partial.

(** *** C01.  An event scheduled with delay t > 0 after [h1], with any other activity before and after it
    and in the callbacks, is invoked at tick (ticks h1 + t) and at no other, if that tick is reached. *)
Theorem C01_fires_exactly_once_exactly_on_time :
  forall cb fuel h1 c t h2 s,
  cb_adds cb -> Forall top_add h1 -> Forall top_add h2 -> 0 < t ->
  cb_not c cb -> Forall (top_not c) h1 -> Forall (top_not c) h2 ->
  run cb fuel init_event (h1 ++ Do (Add c t) :: h2) = Ok s ->
  forall k, fired_at k c (s_log s) = if (k =? ticks h1 + t) && (t <=? ticks h2) then 1%nat else 0%nat.
Proof. exact one_event_on_time. Qed.
Print Assumptions C01_fires_exactly_once_exactly_on_time.

(** The clock always gets on: a run of such a client terminates (enough fuel always exists). *)
Theorem C01_clock_progress :
  forall cb, (forall lg c, Forall op_later (cb lg c)) ->
  forall h, (forall o, In (Do o) h -> op_later o) ->
  exists f0 s, forall fuel, (f0 <= fuel)%nat -> run cb fuel init_event h = Ok s.
Proof. exact run_terminates. Qed.
Print Assumptions C01_clock_progress.

(** A client whose callback 7 reschedules itself, with two more events around it. *)
Definition demo_cb (lg : list obs) (c : call) : list op :=
  if c_func c =? 7 then [Add (Call 1 8 0 0) 2; Add (Call 1 9 0 0) 0] else [].
Definition demo_hist1 : list top := [Do (Add (Call 1 7 0 0) 3); Do (Add (Call 2 5 0 0) 5); Tick].
Definition demo_hist2 : list top := [Tick; Do (Add (Call 2 6 0 0) 1); Tick; Tick; Tick].

Example C01_hypotheses_met :
  cb_adds demo_cb /\ cb_not (Call 3 7 1 1) demo_cb /\
  Forall top_add demo_hist1 /\ Forall top_add demo_hist2 /\
  Forall (top_not (Call 3 7 1 1)) demo_hist1 /\ Forall (top_not (Call 3 7 1 1)) demo_hist2 /\
  exists s, run demo_cb 20 init_event (demo_hist1 ++ Do (Add (Call 3 7 1 1) 2) :: demo_hist2) = Ok s /\
    fired_at 3 (Call 3 7 1 1) (s_log s) = 1%nat /\ fired_at 5 (Call 1 8 0 0) (s_log s) = 2%nat.
Proof.
  split; [|split; [|split; [|split; [|split; [|split]]]]].
  - intros lg c. unfold demo_cb. destruct (c_func c =? 7); repeat constructor; cbn; lia.
  - intros lg c. unfold demo_cb. destruct (c_func c =? 7); repeat constructor; cbn; congruence.
  - repeat constructor; cbn; lia.
  - repeat constructor; cbn; lia.
  - repeat constructor; cbn; congruence.
  - repeat constructor; cbn; congruence.
  - eexists. split; [vm_compute; reflexivity|]. split; vm_compute; reflexivity.
Qed.

Example C01_progress_hypotheses_met :
  let cb := fun (lg : list obs) (c : call) => [Add c 1; Add (Call 0 0 0 0) 3] in
  (forall lg c, Forall op_later (cb lg c)) /\
  (forall o, In (Do o) [Do (Add (Call 1 1 1 1) 2); Tick; Tick; Tick] -> op_later o).
Proof.
  split.
  - intros. repeat constructor; cbn; lia.
  - intros o [H|[H|[H|[H|[]]]]]; try discriminate. injection H as <-. cbn. lia.
Qed.

(** *** C02.  In every state reached, adding an event puts it behind the events due earlier, in front of
    those due at the same tick or later, and leaves all of them and their deadlines as they were. *)
Theorem C02_add_keeps_the_others :
  forall cb s c t, reached cb s -> 0 < t ->
  exists l1 l2 s', pending_of s = Some (l1 ++ l2) /\ add_event s c t = Ok s' /\
    pending_of s' = Some (l1 ++ (s_now s + t, c) :: l2) /\
    Forall (fun e => fst e < s_now s + t) l1 /\ Forall (fun e => s_now s + t <= fst e) l2.
Proof. exact add_event_order. Qed.
Print Assumptions C02_add_keeps_the_others.

Example C02_hypotheses_met : exists s,
  reached demo_cb s /\
  pending_of s = Some [(3, Call 1 7 0 0); (5, Call 2 5 0 0)].
Proof.
  eexists. split.
  - exists 20%nat, demo_hist1. eexists. split; vm_compute; reflexivity.
  - vm_compute. reflexivity.
Qed.

(** *** C03.  A zero-delay event runs its callback at once; if the callback itself schedules nothing, memory,
    queue and clock are as before; in general the effect on them is that of the callback's own calls. *)
Theorem C03_zero_delay_runs_at_once :
  forall cb fuel s c,
  let s1 := Sched (s_heap s) (s_head s) (s_tail s) (s_now s)
              (Fired (s_now s) c :: Added (s_now s) c 0 :: s_log s) in
  exec cb (S fuel) s [Add c 0] = exec cb fuel s1 (cb (s_log s1) c) /\
  (cb (s_log s1) c = [] -> exec cb (S fuel) s [Add c 0] = Ok s1 /\ pending_of s1 = pending_of s).
Proof. exact zero_delay. Qed.
Print Assumptions C03_zero_delay_runs_at_once.

Example C03_hypotheses_met : demo_cb [Fired 0 (Call 1 2 3 4)] (Call 1 2 3 4) = [].
Proof. reflexivity. Qed.

(** *** C04.  True when the event to be removed is the next one due, or when there is none... *)
Theorem C04_cancel_next_or_absent_partial :
  forall cb s d f l, reached cb s -> pending_of s = Some l ->
  (forall e r, l = e :: r -> pend_match d f e = true \/ existsb (pend_match d f) r = false) ->
  exists s', cancel_event s d f = Ok s' /\ pending_of s' = Some (dequeue d f l) /\ s_now s' = s_now s.
Proof. exact cancel_head_or_absent. Qed.
Print Assumptions C04_cancel_next_or_absent_partial.

Example C04_partial_hypotheses_met : exists s,
  reached demo_cb s /\ pending_of s = Some [(3, Call 1 7 0 0); (5, Call 2 5 0 0)] /\
  exists s', cancel_event s 1 7 = Ok s' /\ pending_of s' = Some [(5, Call 2 5 0 0)].
Proof.
  eexists. split.
  - exists 20%nat, demo_hist1. eexists. split; vm_compute; reflexivity.
  - split; [vm_compute; reflexivity|]. eexists. split; vm_compute; reflexivity.
Qed.

(** ...and false in every other case: in every reachable state, cancelling an event that is pending but is
    not the next one leaves a pointer to freed memory in the queue. *)
Theorem C04_cancel_of_any_other_event_refuted :
  forall cb s d f e r, reached cb s -> pending_of s = Some (e :: r) ->
  pend_match d f e = false -> existsb (pend_match d f) r = true ->
  exists s', cancel_event s d f = Ok s' /\ pending_of s' = None /\
    (forall d' f', existsb (pend_match d' f') (e :: r) = false -> cancel_event s' d' f' = UB) /\
    (forall c t, Forall (fun x => fst x < s_now s + t) (e :: r) -> add_event s' c t = UB).
Proof. exact cancel_other_corrupts. Qed.
Print Assumptions C04_cancel_of_any_other_event_refuted.

Example C04_refuted_hypotheses_met : exists s,
  reached demo_cb s /\ pending_of s = Some [(3, Call 1 7 0 0); (5, Call 2 5 0 0)] /\
  pend_match 2 5 (3, Call 1 7 0 0) = false /\ existsb (pend_match 2 5) [(5, Call 2 5 0 0)] = true.
Proof.
  eexists. split.
  - exists 20%nat, demo_hist1. eexists. split; vm_compute; reflexivity.
  - split; [vm_compute; reflexivity|]. split; reflexivity.
Qed.

(** *** C05.  Freed memory is touched: by cancelling the second of two events and letting the clock run, and
    by a callback that cancels its own (running) event. *)
Theorem C05_use_after_free_refuted :
  (exists h, run (fun _ _ => []) 50 init_event h = UB /\ Forall (fun o => match o with Do (Add _ t) => 0 < t | _ => True end) h) /\
  (exists cb, run cb 50 init_event [Do (Add (Call 1 1 0 0) 1); Tick] = UB).
Proof.
  split.
  - exists [Do (Add (Call 1 1 0 0) 1); Do (Add (Call 2 2 0 0) 2); Do (Cancel 2 2); Tick].
    split; [vm_compute; reflexivity|repeat constructor].
  - exists (fun _ c => [Cancel (c_dev c) (c_func c)]). vm_compute. reflexivity.
Qed.
Print Assumptions C05_use_after_free_refuted.

(** Without any cancel nothing of the kind can happen, whatever the callbacks schedule. *)
Theorem C05_no_cancel_no_use_after_free_partial :
  forall cb fuel h, cb_adds cb -> Forall top_add h -> run cb fuel init_event h <> UB.
Proof. exact adds_no_ub. Qed.
Print Assumptions C05_no_cancel_no_use_after_free_partial.

Example C05_hypotheses_met : exists sp,
  srun demo_cb 20 sinit (demo_hist1 ++ Do (Cancel 1 7) :: Do (Cancel 4 4) :: demo_hist2) = Ok sp /\
  p_pending sp = [].
Proof. eexists. split; vm_compute; reflexivity. Qed.
