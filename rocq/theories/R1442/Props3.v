(** The keys of the card reader and punch act on what they name: C59. *)
From Verif Require Import R1442.Spec3 R1442.Proofs R1442.Proofs2 R1442.Proofs8.

(** C59: whatever the channel, the callbacks and the operator have done, the three keys that empty a hopper or stacker empty
    that one and change nothing else. *)
Theorem C59_empty : forall a l s p, run a init_dev l = Ok s ->
  exists s', do_key s (empty_key p) = Ok s' /\ only_at p s s' /\ unread (at_place p s') = [] /\ stacked (at_place p s') = [].
Proof. exact run_empty. Qed.
Print Assumptions C59_empty.
Example C59_empty_example : exists s s', run 12 init_dev [Key (KBlank 4); Key KStart; Key KSave1; Key KNpro; Key KNpro] = Ok s /\
  stacked (d_stack0 s) = [blank] /\ c_file (d_stack0 s) <> None /\ do_key s (empty_key Stacker1) = Ok s' /\ stacked (d_stack0 s') = [] /\
  path s' = [blank; blank; blank].
Proof. do 2 eexists. split; [vm_compute; reflexivity|]. split; [reflexivity|]. split; [discriminate|]. split; [vm_compute; reflexivity|]. split; reflexivity. Qed.
(** The same from any state in which what is to be punched from there has been punched. *)
Theorem C59_empty_any : forall s p, settled (at_place p s) ->
  exists s', do_key s (empty_key p) = Ok s' /\ only_at p s s' /\ unread (at_place p s') = [] /\ stacked (at_place p s') = [] /\ settled (at_place p s').
Proof. exact key_empty. Qed.
Print Assumptions C59_empty_any.
Example C59_empty_any_example : settled (at_place Stacker1 full_dev) /\ exists s', do_key full_dev (empty_key Stacker1) = Ok s' /\
  stacked (d_stack0 s') = [] /\ stacked (d_stack1 s') = [blank; blank] /\ path s' = [blank; some_card; blank; some_card].
Proof. split; [left; reflexivity|]. eexists. split; [vm_compute; reflexivity|]. repeat split. Qed.

(** The key for blank cards puts as many below the cards in the hopper as were asked for, and one if the number is no good. *)
Theorem C59_blank : forall s n, ctx_ok (d_feed s) -> exists s', do_key s (KBlank n) = Ok s' /\ only_at Hopper s s' /\
  unread (d_feed s') = unread (d_feed s) ++ repeat blank (Z.to_nat (if 0 <? n then n else 1)).
Proof. exact key_blank. Qed.
Print Assumptions C59_blank.
Example C59_blank_example : ctx_ok (d_feed full_dev) /\ exists s', do_key full_dev (KBlank 2) = Ok s' /\ unread (d_feed s') = [blank; some_card; blank; blank] /\ d_hop_cnt s' = 4.
Proof. split; [vm_compute; repeat constructor|]. eexists. split; [vm_compute; reflexivity|]. split; reflexivity. Qed.

(** Load puts what read_deck makes of the file (C16) into the hopper. *)
Theorem C59_load : forall s fuel junk bytes c, read_deck fuel junk (d_feed s) bytes = Ok c ->
  exists s', do_key s (KLoad fuel junk bytes) = Ok s' /\ only_at Hopper s s' /\ d_feed s' = c.
Proof. exact key_load. Qed.
Print Assumptions C59_load.
Example C59_load_example : exists c, read_deck 10 (fun _ _ => 0) (d_feed full_dev) [65; 10; 66; 10] = Ok c /\ hopper_size c = 4.
Proof. eexists. split; [vm_compute; reflexivity|reflexivity]. Qed.

(** Saving stacker 1, as far as it holds: the cards that have not been saved yet are punched into the file in their order, and
    all stay in the stacker.  Missing: the cards that have been saved before, see below. *)
Theorem C59_save_partial : forall s, ctx_good (d_stack0 s) -> exists s' bs, do_key s KSave1 = Ok s' /\ only_at Stacker1 s s' /\
  Forall2 (fun img b => punch_bytes (c_mode (d_stack0 s)) img = Ok b) (unread (d_stack0 s)) bs /\ c_file (d_stack0 s') = Some (concat bs) /\
  stacked (d_stack0 s') = stacked (d_stack0 s).
Proof. exact key_save. Qed.
Print Assumptions C59_save_partial.
Example C59_save_example : exists s', do_key full_dev KSave1 = Ok s' /\ length (stacked (d_stack0 s')) = 3%nat /\ c_file (d_stack0 s') = Some [57; 10; 32; 10; 57; 10].
Proof. eexists. split; [vm_compute; reflexivity|]. split; reflexivity. Qed.
(** C59 fails: a second file gets nothing, *)
Theorem C59_save_again_refuted : exists s1 s2, do_key full_dev KSave1 = Ok s1 /\ do_key s1 KSave1 = Ok s2 /\
  length (stacked (d_stack0 s2)) = 3%nat /\ c_file (d_stack0 s2) = Some [].
Proof. do 2 eexists. split; [vm_compute; reflexivity|]. split; [vm_compute; reflexivity|]. split; reflexivity. Qed.
Print Assumptions C59_save_again_refuted.
(** and the key that saves stacker 2 saves stacker 1, whatever there is in them. *)
Theorem C59_save2_refuted : forall s, do_key s KSave2 = do_key s KSave1 /\ forall s', do_key s KSave2 = Ok s' -> d_stack1 s' = d_stack1 s.
Proof. exact key_save2. Qed.
Print Assumptions C59_save2_refuted.
Example C59_save2_example : exists s', do_key full_dev KSave2 = Ok s' /\ c_file (d_stack0 s') = Some [57; 10; 32; 10; 57; 10] /\
  c_file (d_stack1 s') = None /\ stacked (d_stack1 s') = [blank; blank].
Proof. eexists. split; [vm_compute; reflexivity|]. repeat split. Qed.

(** The end-of-file key turns its switch over, and the stop key sets its own. *)
Theorem C59_switches : forall s,
  (exists s', do_key s KEof = Ok s' /\ interface s' = interface s /\ stations s' = stations s /\ same_cards s s' /\
     d_eof s' = negb (d_eof s) /\ d_rdy s' = d_rdy s /\ d_stop s' = d_stop s /\ d_hop_cnt s' = hopper_size (d_feed s)) /\
  (exists s', do_key s KStop = Ok s' /\ interface s' = interface s /\ stations s' = stations s /\ same_cards s s' /\
     d_stop s' = true /\ d_rdy s' = d_rdy s /\ d_eof s' = d_eof s /\ d_hop_cnt s' = hopper_size (d_feed s)).
Proof. exact key_switches. Qed.
Print Assumptions C59_switches.
Example C59_switches_example : d_eof full_dev = false /\ d_stop full_dev = false /\ d_rdy full_dev = true.
Proof. repeat split. Qed.

(** The start key does nothing while an operation is in progress.  On an idle device with a card at the read station it
    reports device end and moves no card. *)
Theorem C59_start : forall s,
  (d_st s <> IDLE -> exists s', do_key s KStart = Ok s' /\ interface s' = interface s /\ stations s' = stations s /\ switches s' = switches s /\ same_cards s s') /\
  (d_st s = IDLE -> d_rdr_full s = true -> exists s', do_key s KStart = Ok s' /\ stations s' = stations s /\ switches s' = switches s /\ same_cards s s' /\
     d_status s' = 4 /\ d_data_end s' = true /\ d_feed_done s' = true /\ d_st s' = IDLE /\ d_sense s' = d_sense s).
Proof. exact key_start. Qed.
Print Assumptions C59_start.
Example C59_start_example : d_st full_dev = IDLE /\ d_rdr_full full_dev = true /\ d_status full_dev = 0.
Proof. repeat split. Qed.
