(** Properties C40-C42: the lists of devices. *)
From Verif Require Import Device.Model Device.Spec Device.Proofs.

(** *** C40.  After any sequence of registrations and removals a lookup gives the first device registered on the channel
    whose address agrees under the mask, or nothing if there is none.  Devices are registered once at a time and on the
    channels 0 to 5. *)
Theorem C40_registry_partial :
  forall ad nx ops fuel, rops_ok [] ops -> (length ops < fuel)%nat ->
  exists g, do_rops fuel (no_devices ad nx) ops = Ok g /\
  forall addr mask, chan_no addr < 6 -> find_chan fuel g addr mask = Ok (first_match (reg_ops [] ops) addr mask).
Proof.
  intros ad nx ops fuel OK F. destruct (do_rops_rep ops fuel _ [] (rep_none ad nx) OK F) as (g & E & R). exists g. split; [exact E|].
  intros addr mask C. apply find_rep; [exact R|exact C|].
  assert (X : forall ops l, (length (reg_ops l ops) <= length l + length ops)%nat).
  { clear. intros ops. induction ops as [|o ops IH]; intros l; cbn [reg_ops fold_left length]; [lia|]. specialize (IH (reg_op l o)). unfold reg_ops in IH.
    assert (length (reg_op l o) <= length l + 1)%nat; [|lia]. destruct o as [d a|d a]; cbn [reg_op]; [rewrite app_length; cbn; lia|].
    clear. induction l as [|e l IH]; cbn [filter length]; [lia|]. destruct (negb _); cbn [length]; lia. }
  specialize (X ops []). cbn [length] in X. lia.
Qed.
Print Assumptions C40_registry_partial.
Example C40_met :
  rops_ok [] [RAdd 1 12; RAdd 2 13; RAdd 3 0x190; RDel 1 12; RAdd 1 14] /\
  first_match (reg_ops [] [RAdd 1 12; RAdd 2 13; RAdd 3 0x190; RDel 1 12; RAdd 1 14]) 14 0xff = Some 1%nat /\
  first_match (reg_ops [] [RAdd 1 12; RAdd 2 13; RAdd 3 0x190; RDel 1 12; RAdd 1 14]) 12 0xff = None.
Proof. cbn. intuition (try discriminate; try lia). Qed.

(** What the first match is, without [find]: a device that matches is found if there is any, and none older matches. *)
Theorem C40_found_iff :
  forall l addr mask, NoDup (map fst l) ->
  match first_match l addr mask with
  | Some d => exists before a after, l = before ++ (d, a) :: after /\ chan_no a = chan_no addr /\ Z.land a mask = Z.land addr mask /\
              forall e b, In (e, b) before -> ~ (chan_no b = chan_no addr /\ Z.land b mask = Z.land addr mask)
  | None => forall e b, In (e, b) l -> ~ (chan_no b = chan_no addr /\ Z.land b mask = Z.land addr mask)
  end.
Proof.
  intros l addr mask _. unfold first_match. induction l as [|[d a] l IH]; cbn [find option_map].
  - intros e b [].
  - unfold on_chan at 1. cbn [snd]. destruct ((chan_no a =? chan_no addr) && (Z.land a mask =? Z.land addr mask)) eqn:E; cbn [option_map fst].
    + apply andb_true_iff in E. exists [], a, l. split; [reflexivity|]. split; [lia|]. split; [lia|]. intros e b [].
    + destruct (find _ l) as [[x y]|]; cbn [option_map fst] in *.
      * destruct IH as (bf & a' & af & -> & C & M & N). exists ((d, a) :: bf), a', af. split; [reflexivity|]. split; [exact C|]. split; [exact M|].
        intros e b [Q|Q]; [injection Q as <- <-; intros [? ?]; apply andb_false_iff in E; lia|apply N with e, Q].
      * intros e b [Q|Q]; [injection Q as <- <-; intros [? ?]; apply andb_false_iff in E; lia|apply IH with e, Q].
Qed.
Print Assumptions C40_found_iff.
Example C40_found_met : NoDup (map fst [(1%nat, 12); (2%nat, 13)]).
Proof. repeat constructor; cbn; intuition lia. Qed.

(** Channels 6 and 7 have no entry in chan[]. *)
Theorem C40_channels_6_and_7_refuted :
  forall fuel g d a, length (g_chan g) = 6%nat -> 6 <= chan_no a -> add_chan fuel g d a = UB /\ del_chan fuel g d a = UB /\ forall mask, find_chan fuel g a mask = UB.
Proof.
  intros fuel g d a L C. pose proof (chan_range a) as CR.
  assert (N : nth_error (g_chan g) (Z.to_nat (chan_no a)) = None) by (apply nth_error_None; rewrite L; lia).
  unfold add_chan, del_chan, find_chan, chan_get. cbn [g_chan]. rewrite N. repeat split.
Qed.
Print Assumptions C40_channels_6_and_7_refuted.
Example C40_channels_met : forall ad nx, length (g_chan (no_devices ad nx)) = 6%nat /\ chan_no 0x6c0 = 6.
Proof. intros. split; reflexivity. Qed.

(** Registering a device again loses the devices behind it, and on the same channel makes every further search endless. *)
Theorem C40_twice_refuted :
  forall ad nx fuel, (2 <= fuel)%nat ->
  (exists g, do_rops fuel (no_devices ad nx) [RAdd 1 12; RAdd 2 13; RAdd 1 0x10c] = Ok g /\ find_chan fuel g 13 0xff = Ok None) /\
  (exists g, do_rops fuel (no_devices ad nx) [RAdd 1 12; RAdd 2 13; RAdd 1 12] = Ok g /\ forall n, find_chan n g 13 0xff = NoFuel).
Proof.
  intros ad nx [|[|f]] F; try lia. split; eexists; (split; [reflexivity|]); [reflexivity|].
  intros n. unfold find_chan. cbn [chan_get g_chan bind nth_error Z.to_nat chan_no].
  match goal with |- context [find_from _ ?g _ _ _] => set (G := g) end.
  assert (X : forall m, find_from m G (Some 1%nat) 13 255 = NoFuel); [|exact (X n)].
  induction m as [|m IH]; [reflexivity|]. cbn [find_from]. change (g_next G 1%nat) with (Some 1%nat). change (Z.land (g_addr G 1%nat) 255 =? Z.land 13 255) with false. exact IH.
Qed.
Print Assumptions C40_twice_refuted.

(** *** C41.  After any sequence of additions and removals of disk controllers the loop steps exactly those that were
    added and not removed, the last one first, each once. *)
Theorem C41_disks :
  forall ops fuel does, Forall is_obj ops -> (length ops <= fuel)%nat ->
  (forall f d, In (f, d) (fold_left disk_op ops []) -> does f d = []) ->
  exists s, acts fuel no_disks ops = Ok s /\ step_disk fuel does s = Ok (s, fold_left disk_op ops []).
Proof.
  intros ops fuel does OK F D. destruct (acts_drep ops fuel no_disks []) as (s & E & R); [exists []; split; constructor|exact OK|cbn; lia|].
  exists s. split; [exact E|]. apply step_drep; [exact R| |exact D].
  assert (X : forall ops l, (length (fold_left disk_op ops l) <= length l + length ops)%nat).
  { clear. intros ops. induction ops as [|o ops IH]; intros l; cbn [fold_left length]; [lia|]. specialize (IH (disk_op l o)).
    assert (length (disk_op l o) <= length l + 1)%nat; [|lia]. destruct o as [f d|d]; cbn [disk_op length]; [lia|]. pose proof (remove_length d l). lia. }
  specialize (X ops []). cbn [length] in X. lia.
Qed.
Print Assumptions C41_disks.
Example C41_met :
  Forall is_obj [AAdd 7 (Obj 1); AAdd 7 (Obj 2); AAdd 8 (Obj 3); ADel (Obj 2)] /\
  fold_left disk_op [AAdd 7 (Obj 1); AAdd 7 (Obj 2); AAdd 8 (Obj 3); ADel (Obj 2)] [] = [(8%nat, Obj 3); (7%nat, Obj 1)].
Proof. split; [repeat constructor|reflexivity]. Qed.

(** A controller added once is not stepped any more once it is removed, the others are. *)
Theorem C41_removed :
  forall l d, NoDup (map snd l) -> ~ In d (map snd (remove_first d l)) /\ forall e, snd e <> d -> In e l -> In e (remove_first d l).
Proof.
  assert (PE : forall a b, ptr_eqb a b = true <-> a = b).
  { intros [|m|m] [|n|n]; cbn; split; intros H; try discriminate; try reflexivity; try (apply Nat.eqb_eq in H; subst; reflexivity); injection H as ->; apply Nat.eqb_refl. }
  induction l as [|e l IH]; intros d ND; cbn [remove_first].
  - split; [intros []|intros e _ []].
  - cbn [map] in ND. inversion_clear ND as [|? ? N1 N2]. destruct (ptr_eqb (snd e) d) eqn:E.
    + apply PE in E. subst d. split; [exact N1|]. intros x NX [<-|X]; [congruence|exact X].
    + destruct (IH d N2) as [A B]. split.
      * cbn [map]. intros [Q|Q]; [apply PE in Q; congruence|exact (A Q)].
      * intros x NX [<-|X]; [left; reflexivity|right; apply B; assumption].
Qed.
Print Assumptions C41_removed.
Example C41_removed_met : NoDup (map snd [(8%nat, Obj 3); (7%nat, Obj 1)]).
Proof. repeat constructor; cbn; intuition discriminate. Qed.

(** Removing nothing from an empty list follows a null pointer; a controller that removes itself while it is stepped makes
    the loop read freed memory. *)
Theorem C41_null_and_self_refuted :
  (forall fuel, del_disk fuel no_disks Null = UB) /\
  (forall fuel, (1 <= fuel)%nat -> exists s, acts fuel no_disks [AAdd 7 (Obj 1)] = Ok s /\ step_disk fuel (fun _ d => [ADel d]) s = UB).
Proof. split; [reflexivity|]. intros [|f] F; [lia|]. eexists. split; reflexivity. Qed.
Print Assumptions C41_null_and_self_refuted.

(** *** C42.  Starting and stopping call the function of every registered device that has one, once, in the order of
    channels and registration. *)
Theorem C42_every_device_once :
  forall ad nx ops fuel has, rops_ok [] ops -> (length ops < fuel)%nat ->
  exists g, do_rops fuel (no_devices ad nx) ops = Ok g /\ system_calls fuel g has = Ok (filter has (by_chan (reg_ops [] ops))).
Proof.
  intros ad nx ops fuel has OK F. destruct (do_rops_rep ops fuel _ [] (rep_none ad nx) OK F) as (g & E & R). exists g. split; [exact E|].
  apply calls_rep; [exact R|].
  assert (X : forall ops l, (length (reg_ops l ops) <= length l + length ops)%nat).
  { clear. intros ops. induction ops as [|o ops IH]; intros l; cbn [reg_ops fold_left length]; [lia|]. specialize (IH (reg_op l o)). unfold reg_ops in IH.
    assert (length (reg_op l o) <= length l + 1)%nat; [|lia]. destruct o as [d a|d a]; cbn [reg_op]; [rewrite app_length; cbn; lia|].
    clear. induction l as [|e l IH]; cbn [filter length]; [lia|]. destruct (negb _); cbn [length]; lia. }
  specialize (X ops []). cbn [length] in X. lia.
Qed.
Print Assumptions C42_every_device_once.
Example C42_met :
  rops_ok [] [RAdd 3 0x190; RAdd 1 12; RAdd 2 13] /\ by_chan (reg_ops [] [RAdd 3 0x190; RAdd 1 12; RAdd 2 13]) = [1%nat; 2%nat; 3%nat].
Proof. cbn. intuition (try discriminate; try lia). Qed.
